(** Proofs about the council. *)
From Verif Require Import Prelude CommonTypes MsaModel ScModel RtModel CoModel CoSpec.
From Verif Require RtFinal RtProofs.

Lemma motion_app l c v c' : motion (l ++ [(c, v)]) c' = match motion l c' with Some w => Some w | None => if decide (c' = c) then Some v else None end.
Proof. induction l as [|[c0 v0] l IH]; cbn; [done|]. by destruct (decide (c' = c0)). Qed.
Lemma motion_set l c v c' : motion (set_motion l c v) c' = if decide (c = c') then match motion l c with Some _ => Some v | None => None end else motion l c'.
Proof.
  induction l as [|[c0 v0] l IH]; cbn; [by destruct (decide _)|].
  destruct (decide (c = c0)) as [->|Hne]; cbn.
  - destruct (decide (c' = c0)) as [->|]; [by rewrite decide_True|]. etrans; [exact IH|]. by rewrite !decide_False by congruence.
  - destruct (decide (c' = c0)) as [->|]; [by rewrite decide_False by congruence|]. exact IH.
Qed.
Lemma motion_remove l c c' : motion (remove_motion l c) c' = if decide (c = c') then None else motion l c'.
Proof.
  induction l as [|[c0 v0] l IH]; cbn; [by destruct (decide _)|].
  destruct (decide (c = c0)) as [->|Hne]; cbn.
  - rewrite bool_decide_true by done. cbn. etrans; [exact IH|]. destruct (decide (c0 = c')) as [->|]; [done|]. by rewrite decide_False by congruence.
  - rewrite bool_decide_false by done. cbn. destruct (decide (c' = c0)) as [->|]; [by rewrite decide_False by congruence|]. exact IH.
Qed.
Lemma motion_map f l c : motion (map (fun e => (e.1, f e.2)) l) c = f <$> motion l c.
Proof. induction l as [|[c0 v0] l IH]; cbn; [done|]. by destruct (decide _). Qed.

Lemma in_filter (f : N -> bool) l a : a ∈ List.filter f l <-> a ∈ l /\ f a = true.
Proof. rewrite !elem_of_list_In. apply filter_In. Qed.
Lemma nodup_filter (f : N -> bool) l : NoDup l -> NoDup (List.filter f l).
Proof.
  induction 1 as [|x l Hx _ IH]; cbn; [constructor|]. destruct (f x); [|done]. constructor; [|done]. by rewrite in_filter; intros [? _].
Qed.
Lemma nodup_size (l : list N) : NoDup l -> len l = N.of_nat (size (list_to_set l : gset N)).
Proof. intros H. rewrite size_list_to_set by done. done. Qed.

Section council.
Variable cfg : RtCfg.

(** The votes of a motion are those of the history. *)
Record votes_ok (co : Council) (c : CoCall) (v : Votes) (F : bool -> gset N) (m : option (N * N * CoStep)) : Prop := {
  vo_index : v_index v < co_count co;
  vo_nd_a : NoDup (v_ayes v);
  vo_nd_n : NoDup (v_nays v);
  vo_a : forall a, a ∈ v_ayes v <-> a ∈ F true;
  vo_n : forall a, a ∈ v_nays v <-> a ∈ F false;
  vo_disj : forall a, a ∈ v_ayes v -> a ∈ v_nays v -> False;
  vo_mem : forall a side, a ∈ F side -> a ∈ co_members co;
  vo_made : exists b seats x, m = Some (b, seats, x) /\ v_end v = b + motion_duration /\ asks x c /\ v_threshold v = passes_with x seats
}.
Record inv (s : CoState) (F : N -> bool -> gset N) (M : N -> option (N * N * CoStep)) : Prop := {
  iv_motion : forall c v, motion (co_motions (k_co s)) c = Some v -> votes_ok (k_co s) c v (F (v_index v)) (M (v_index v));
  iv_uniq : forall c c' v v', motion (co_motions (k_co s)) c = Some v -> motion (co_motions (k_co s)) c' = Some v' -> v_index v = v_index v' -> c = c';
  iv_new : forall i, co_count (k_co s) <= i -> (forall side, F i side = ∅) /\ M i = None;
  iv_len : len (co_motions (k_co s)) <= max_motions
}.

Lemma makes_same i acc s x : co_count (k_co (co_step cfg s x)) = co_count (k_co s) -> makes cfg i acc (s, x) = acc.
Proof.
  intros E. unfold makes. destruct acc; [done|]. cbn [fst snd]. rewrite E.
  destruct (N.eqb_spec (co_count (k_co s)) i); [|done]. destruct (N.eqb_spec (co_count (k_co s)) (i + 1)); [lia|done].
Qed.

Lemma propose_ok co b t c co' : propose_motion co b t c = Ok co' ->
  motion (co_motions co) c = None /\ len (co_motions co) < max_motions /\ co_members co' = co_members co /\ co_prime co' = co_prime co /\ co_count co' = co_count co + 1
  /\ co_motions co' = co_motions co ++ [(c, {| v_index := co_count co; v_threshold := t; v_ayes := []; v_nays := []; v_end := b + motion_duration |})].
Proof.
  unfold propose_motion. intros H. destruct (motion _ _); [done|]. destruct (len (co_motions co) <? max_motions) eqn:E; [|done].
  injection H as <-. apply N.ltb_lt in E. done.
Qed.

(** A step that leaves the council alone. *)
Lemma inv_same s s' F M : k_co s' = k_co s -> inv s F M -> inv s' F M.
Proof. intros E [H1 H2 H3 H4]. split; rewrite E; done. Qed.
Lemma inv_ext s F F' M M' : (forall i side, F' i side = F i side) -> (forall i, M' i = M i) -> inv s F M -> inv s F' M'.
Proof.
  intros EF EM [H1 H2 H3 H4]. split; [|done| |done].
  - intros c v Hm. destruct (H1 c v Hm) as [A1 A2 A3 A4 A5 A6 A7 A8]. split; try done.
    + intros a. by rewrite EF.
    + intros a. by rewrite EF.
    + intros a side. rewrite EF. apply A7.
    + by rewrite EM.
  - intros i Hi. destruct (H3 i Hi) as [B1 B2]. split; [intros side; by rewrite EF|by rewrite EM].
Qed.

Lemma inv_propose s co' t c x F M :
  propose_motion (k_co s) (rs_block (k_rt s)) t c = Ok co' -> asks x c -> t = passes_with x (len (co_members (k_co s))) -> forall s', k_co s' = co' -> co_step cfg s x = s' ->
  inv s F M -> inv s' F (fun i => makes cfg i (M i) (s, x)).
Proof.
  intros Hp Hx Ht s' Es' Est [H1 H2 H3 H4]. apply propose_ok in Hp as (Hn & Hl & E1 & _ & E3 & E4). subst co'.
  assert (Mk : forall i, i <> co_count (k_co s) -> makes cfg i (M i) (s, x) = M i).
  { intros i Hi. unfold makes. destruct (M i); [done|]. cbn [fst snd]. destruct (N.eqb_spec (co_count (k_co s)) i); [congruence|done]. }
  assert (Mn : makes cfg (co_count (k_co s)) (M (co_count (k_co s))) (s, x) = Some (rs_block (k_rt s), len (co_members (k_co s)), x)).
  { unfold makes. rewrite (proj2 (H3 _ (N.le_refl _))). cbn [fst snd]. rewrite Est, E3, !N.eqb_refl. done. }
  split.
  - intros c' v Hm. rewrite E4, motion_app in Hm. destruct (motion _ c') as [w|] eqn:Ew.
    + injection Hm as ->. destruct (H1 c' v Ew) as [A1 A2 A3 A4 A5 A6 A7 A8]. split; try done.
      * rewrite E3. lia.
      * intros a side. rewrite E1. apply A7.
      * by rewrite Mk by lia.
    + destruct (decide (c' = c)) as [->|]; [|done]. injection Hm as <-. cbn [v_index v_ayes v_nays v_end v_threshold].
      destruct (H3 (co_count (k_co s)) (N.le_refl _)) as [B1 B2]. split; cbn [v_index v_ayes v_nays v_end v_threshold].
      * rewrite E3. lia.
      * constructor.
      * constructor.
      * intros a. rewrite B1. split; [by intros ?%elem_of_nil|set_solver].
      * intros a. rewrite B1. split; [by intros ?%elem_of_nil|set_solver].
      * by intros a ?%elem_of_nil.
      * intros a side. rewrite B1. set_solver.
      * rewrite Mn. eauto 8.
  - intros c1 c2 v1 v2 Hm1 Hm2 Ei. rewrite E4, motion_app in Hm1. rewrite E4, motion_app in Hm2.
    destruct (motion _ c1) as [w1|] eqn:W1; destruct (motion _ c2) as [w2|] eqn:W2.
    + injection Hm1 as ->. injection Hm2 as ->. by eapply H2.
    + injection Hm1 as ->. destruct (decide (c2 = c)); [|done]. injection Hm2 as <-. cbn [v_index] in Ei. pose proof (vo_index _ _ _ _ _ (H1 _ _ W1)). lia.
    + injection Hm2 as ->. destruct (decide (c1 = c)); [|done]. injection Hm1 as <-. cbn [v_index] in Ei. pose proof (vo_index _ _ _ _ _ (H1 _ _ W2)). lia.
    + destruct (decide (c1 = c)); [|done]. destruct (decide (c2 = c)); [|done]. congruence.
  - intros i Hi. rewrite E3 in Hi. rewrite Mk by lia. apply H3. lia.
  - rewrite E4. unfold len in *. rewrite app_length. cbn [length]. lia.
Qed.

Lemma inv_remove s s' c F M : co_members (k_co s') = co_members (k_co s) -> co_count (k_co s') = co_count (k_co s) ->
  co_motions (k_co s') = remove_motion (co_motions (k_co s)) c -> inv s F M -> inv s' F M.
Proof.
  intros E1 E2 E3 [H1 H2 H3 H4]. split.
  - intros c' v Hm. rewrite E3, motion_remove in Hm. destruct (decide _); [done|]. destruct (H1 c' v Hm) as [A1 A2 A3 A4 A5 A6 A7 A8].
    split; try done; [by rewrite E2|]. intros a side. rewrite E1. apply A7.
  - intros c1 c2 v1 v2 Hm1 Hm2. rewrite E3, motion_remove in Hm1. rewrite E3, motion_remove in Hm2.
    destruct (decide (c = c1)); [done|]. destruct (decide (c = c2)); [done|]. by eapply H2.
  - intros i. rewrite E2. apply H3.
  - rewrite E3. etrans; [|exact H4]. unfold len, remove_motion. clear. induction (co_motions (k_co s)) as [|e l IH]; cbn; [lia|].
    destruct (negb _); cbn [length]; lia.
Qed.

Lemma cast_ok v who b v' : cast v who b = Ok v' ->
  v_index v' = v_index v /\ v_threshold v' = v_threshold v /\ v_end v' = v_end v
  /\ (NoDup (v_ayes v) -> NoDup (v_ayes v')) /\ (NoDup (v_nays v) -> NoDup (v_nays v'))
  /\ (forall a, a ∈ v_ayes v' <-> if b then a = who \/ a ∈ v_ayes v else a <> who /\ a ∈ v_ayes v)
  /\ (forall a, a ∈ v_nays v' <-> if b then a <> who /\ a ∈ v_nays v else a = who \/ a ∈ v_nays v).
Proof.
  unfold cast. intros H.
  assert (Ad : forall l, ~ who ∈ l -> (NoDup l -> NoDup (l ++ [who])) /\ forall a, a ∈ l ++ [who] <-> a = who \/ a ∈ l).
  { intros l Hl. split.
    - intros Hn. apply NoDup_app. split; [done|]. split; [|apply NoDup_singleton]. intros a Ha ->%elem_of_list_singleton. done.
    - intros a. rewrite elem_of_app, elem_of_list_singleton. tauto. }
  assert (Dr : forall l a, a ∈ List.filter (fun a => negb (a =? who)) l <-> a <> who /\ a ∈ l).
  { intros l a. rewrite in_filter. destruct (N.eqb_spec a who); cbn; intuition done. }
  destruct b.
  - destruct (bool_decide (who ∈ v_ayes v)) eqn:E; [done|]. apply bool_decide_eq_false in E. injection H as <-. cbn.
    destruct (Ad _ E) as [N1 N2]. do 3 (split; [done|]). split; [first [done|apply nodup_filter]|]. split; [first [done|apply nodup_filter]|]. split; intros a; first [apply N2|apply Dr].
  - destruct (bool_decide (who ∈ v_nays v)) eqn:E; [done|]. apply bool_decide_eq_false in E. injection H as <-. cbn.
    destruct (Ad _ E) as [N1 N2]. do 3 (split; [done|]). split; [first [done|apply nodup_filter]|]. split; [first [done|apply nodup_filter]|]. split; intros a; first [apply N2|apply Dr].
Qed.

Lemma inv_step s x F M : inv s F M ->
  inv (co_step cfg s x) (fun i side => word cfg i side (F i side) (s, x)) (fun i => makes cfg i (M i) (s, x)).
Proof.
  intros Hi. destruct x as [x|c|op].
  - assert (E : k_co (co_step cfg s (KRt x)) = k_co s) by (by destruct x).
    apply (inv_ext _ F _ M); [done|intros i; cbv beta; apply makes_same; by rewrite E|]. apply (inv_same s); [done|exact Hi].
  - apply (inv_ext _ F _ M); [done|intros i; cbv beta; apply makes_same; reflexivity|]. apply (inv_same s); [reflexivity|exact Hi].
  - destruct (co_apply cfg s op) as [s'|e] eqn:E.
    2: { assert (Es : co_step cfg s (KOp op) = s) by (cbn; by rewrite E). rewrite Es. apply (inv_ext _ F _ M); [|intros i; cbv beta; apply makes_same; by rewrite Es|done].
         intros i side. unfold word. cbn [fst snd]. destruct op; try done; by rewrite E. }
    assert (Es : co_step cfg s (KOp op) = s') by (cbn; by rewrite E). rewrite Es.
    pose proof E as E0. unfold co_apply in E. destruct op as [who name|who c|who t c|who c j b|c j|c|new p].
    + destruct (msa_dispatch _ _ _ _ _); [|done]. destruct (propose_motion _ _ _ _) as [co'|] eqn:Ep; [|done]. injection E as <-.
      eapply inv_propose; [exact Ep| | |done|exact Es|exact Hi]; done.
    + destruct (sc_dispatch _ _ _ _ _) as [sc|] eqn:Ed; [|done].
      assert (exists g, last (sc_proposals sc) = Some (who, g) /\ for_council who c = Some g \/ for_council who c = None) as (g & Hg).
      { unfold sc_dispatch in Ed. destruct (args_ok _ _); [|done]. destruct c; cbn [ensure_signed] in Ed; try (eexists (CreateSchemaNameViaGovernance 0 []); right; reflexivity).
        - injection Ed as <-. eexists. left. cbn [sc_propose sc_proposals]. rewrite last_snoc. done.
        - injection Ed as <-. eexists. left. cbn [sc_propose sc_proposals]. rewrite last_snoc. done.
        - destruct (parse_and_verify _ _ _); [|done]. injection Ed as <-. eexists. left. cbn [sc_propose sc_proposals]. rewrite last_snoc. done. }
      destruct Hg as [[Hl Hg]|Hg].
      * rewrite Hl in E. assert (E' : exists co', propose_motion (k_co s) (rs_block (k_rt s)) (len (co_members (k_co s)) / 2 + 1) (CoSchemas g) = Ok co'
          /\ s' = {| k_rt := up_sc_ (k_rt s) sc; k_co := co' |}).
        { destruct c; try done; (destruct (propose_motion _ _ _ _) as [co'|] eqn:Ep; [|done]); injection E as <-; eauto. }
        destruct E' as (co' & Ep & ->). eapply inv_propose; [exact Ep|cbn; eauto|done|done|exact Es|exact Hi].
      * destruct c; done.
    + destruct (bool_decide _); [|done]. destruct (t <? 2).
      * destruct (motion _ _); [done|]. injection E as <-.
        apply (inv_ext _ F _ M); [done|intros i; cbv beta; apply makes_same; by rewrite Es|]. apply (inv_same s); [done|exact Hi].
      * destruct (propose_motion _ _ _ _) as [co'|] eqn:Ep; [|done]. injection E as <-. eapply inv_propose; [exact Ep| | |done|exact Es|exact Hi]; done.
    + destruct (bool_decide _) eqn:Em; [|done]. apply bool_decide_eq_true in Em. destruct (motion _ c) as [v|] eqn:Hv; [|done].
      destruct (N.eqb_spec (v_index v) j) as [Ej|]; [|done]. destruct (cast v who b) as [v'|] eqn:Ec; [|done]. injection E as <-.
      apply cast_ok in Ec as (Ci & Ct & Ce & Ca & Cn & CA & CN).
      assert (W : forall i side, word cfg i side (F i side) (s, KOp (OVote who c j b)) = if j =? i then (if Bool.eqb b side then {[who]} ∪ F i side else F i side ∖ {[who]}) else F i side).
      { intros i side. unfold word. cbn [fst snd]. rewrite E0. cbn [is_ok]. by destruct (j =? i). }
      assert (Mk : forall i, makes cfg i (M i) (s, KOp (OVote who c j b)) = M i) by (intros i; cbv beta; apply makes_same; by rewrite Es).
      destruct Hi as [H1 H2 H3 H4]. split; cbn [k_co with_co up_motions co_motions co_members co_count].
      * intros c' v1 Hm. rewrite motion_set in Hm. destruct (decide (c = c')) as [<-|Hne].
        -- rewrite Hv in Hm. injection Hm as <-. destruct (H1 c v Hv) as [A1 A2 A3 A4 A5 A6 A7 A8]. rewrite Ci, Ej. subst j. split.
           ++ cbn. by rewrite Ci.
           ++ by apply Ca.
           ++ by apply Cn.
           ++ intros a. rewrite CA, W, N.eqb_refl. destruct b; cbn [Bool.eqb]; rewrite A4; set_solver.
           ++ intros a. rewrite CN, W, N.eqb_refl. destruct b; cbn [Bool.eqb]; rewrite A5; set_solver.
           ++ intros a. rewrite CA, CN. specialize (A6 a). destruct b; intuition congruence.
           ++ intros a side. rewrite W, N.eqb_refl. specialize (A7 a side). destruct (Bool.eqb _ _); [|set_solver].
              intros [->%elem_of_singleton|?]%elem_of_union; [done|]. by apply A7.
           ++ rewrite Mk, Ce, Ct. exact A8.
        -- assert (Hji : j <> v_index v1). { intros Hj. apply Hne. eapply H2; [exact Hv|exact Hm|congruence]. }
           destruct (H1 c' v1 Hm) as [A1 A2 A3 A4 A5 A6 A7 A8]. destruct (N.eqb_spec j (v_index v1)) as [|_]; [done|].
           assert (W' : forall side, word cfg (v_index v1) side (F (v_index v1) side) (s, KOp (OVote who c j b)) = F (v_index v1) side).
           { intros side. rewrite W. by destruct (N.eqb_spec j (v_index v1)). }
           split; try done.
           ++ intros a. rewrite W'. apply A4.
           ++ intros a. rewrite W'. apply A5.
           ++ intros a side. rewrite W'. apply A7.
           ++ by rewrite Mk.
      * assert (L : forall c' w, motion (set_motion (co_motions (k_co s)) c v') c' = Some w -> exists w', motion (co_motions (k_co s)) c' = Some w' /\ v_index w' = v_index w).
        { intros c' w Hw. rewrite motion_set in Hw. destruct (decide (c = c')) as [<-|]; [|eauto]. rewrite Hv in Hw. injection Hw as <-. eauto. }
        intros c1 c2 v1 v2 Hm1 Hm2 Ei. apply L in Hm1 as (w1 & Hm1 & Q1), Hm2 as (w2 & Hm2 & Q2). eapply H2; [exact Hm1|exact Hm2|congruence].
      * intros i Hi. destruct (H3 i Hi) as [B1 B2]. rewrite Mk. split; [|done]. intros side. rewrite W.
        pose proof (vo_index _ _ _ _ _ (H1 c v Hv)). destruct (N.eqb_spec j i); [lia|]. done.
      * unfold len in *. unfold set_motion. by rewrite map_length.
    + destruct (motion _ _) as [v|]; [|done]. destruct (v_index v =? j); [|done]. destruct (tally _ _ _); [|done]. injection E as <-.
      apply (inv_ext _ F _ M); [done|intros i; cbv beta; apply makes_same; by rewrite Es|]. apply (inv_remove s _ c); done.
    + injection E as <-.
      apply (inv_ext _ F _ M); [done|intros i; cbv beta; apply makes_same; by rewrite Es|]. apply (inv_remove s _ c); done.
    + destruct (match p with Some _ => _ | None => _ end) eqn:Ep; [|done]. injection E as <-.
      assert (W : forall i side, word cfg i side (F i side) (s, KOp (OSetMembers new p)) = F i side ∩ list_to_set new).
      { intros i side. unfold word. cbn [fst snd]. by rewrite E0. }
      assert (Mk : forall i, makes cfg i (M i) (s, KOp (OSetMembers new p)) = M i) by (intros i; cbv beta; apply makes_same; by rewrite Es).
      destruct Hi as [H1 H2 H3 H4]. unfold with_co, change_members. cbn [k_co].
      set (outgoing := List.filter (fun a => negb (bool_decide (a ∈ new))) (co_members (k_co s))).
      set (stay := List.filter (fun a => negb (bool_decide (a ∈ outgoing)))).
      assert (St : forall l a, (forall a, a ∈ l -> a ∈ co_members (k_co s)) -> a ∈ stay l <-> a ∈ l /\ a ∈ new).
      { intros l a Hl. unfold stay. rewrite in_filter, negb_true_iff, bool_decide_eq_false. unfold outgoing. rewrite in_filter, negb_true_iff, bool_decide_eq_false.
        split; intros [Ha Hb]; (split; [done|]).
        - destruct (decide (a ∈ new)); [done|]. destruct Hb. split; [by apply Hl|done].
        - intros [_ ?]. done. }
      set (f := fun v => {| v_index := v_index v; v_threshold := v_threshold v; v_ayes := stay (v_ayes v); v_nays := stay (v_nays v); v_end := v_end v |}).
      change (map (fun e : CoCall * Votes => (e.1, {| v_index := v_index e.2; v_threshold := v_threshold e.2; v_ayes := stay (v_ayes e.2); v_nays := stay (v_nays e.2); v_end := v_end e.2 |})) (co_motions (k_co s)))
        with (map (fun e : CoCall * Votes => (e.1, f e.2)) (co_motions (k_co s))).
      split; cbn [k_co co_motions co_members co_count].
      * intros c v Hm. rewrite motion_map in Hm. destruct (motion _ c) as [w|] eqn:Hw; [|done]. injection Hm as <-. cbn [f v_index].
        destruct (H1 c w Hw) as [A1 A2 A3 A4 A5 A6 A7 A8].
        assert (La : forall a, a ∈ v_ayes w -> a ∈ co_members (k_co s)) by (intros a Ha; apply (A7 a true), A4, Ha).
        assert (Ln : forall a, a ∈ v_nays w -> a ∈ co_members (k_co s)) by (intros a Ha; apply (A7 a false), A5, Ha).
        split; cbn [f v_index v_ayes v_nays v_end v_threshold co_members co_count].
        -- done.
        -- by apply nodup_filter.
        -- by apply nodup_filter.
        -- intros a. rewrite (St _ a La), W, A4. rewrite elem_of_intersection, elem_of_list_to_set. done.
        -- intros a. rewrite (St _ a Ln), W, A5. rewrite elem_of_intersection, elem_of_list_to_set. done.
        -- intros a. rewrite (St _ a La), (St _ a Ln). intros [? _] [? _]. by apply (A6 a).
        -- intros a side. rewrite W, elem_of_intersection, elem_of_list_to_set. tauto.
        -- rewrite Mk. exact A8.
      * intros c1 c2 v1 v2 Hm1 Hm2 Ei. rewrite motion_map in Hm1, Hm2. destruct (motion _ c1) as [w1|] eqn:W1; [|done]. destruct (motion _ c2) as [w2|] eqn:W2; [|done].
        injection Hm1 as <-. injection Hm2 as <-. cbn [f v_index] in Ei. by eapply H2.
      * intros i Hi. destruct (H3 i Hi) as [B1 B2]. rewrite Mk. split; [|done]. intros side. rewrite W, B1. set_solver.
      * unfold len in *. by rewrite map_length.
Qed.

Lemma trace_app s h x : trace cfg s (h ++ [x]) = trace cfg s h ++ [(co_run cfg s h, x)].
Proof. revert s. induction h as [|y h IH]; intros s; cbn; [done|]. by rewrite IH. Qed.
Lemma run_snoc s h x : co_run cfg s (h ++ [x]) = co_step cfg (co_run cfg s h) x.
Proof. unfold co_run. by rewrite fold_left_app. Qed.

Definition side_of (i : N) (side : bool) (s : CoState) (h : list CoStep) : gset N := fold_left (word cfg i side) (trace cfg s h) ∅.

Lemma inv_run ms p rt h : inv (co_run cfg (co_start ms p rt) h) (fun i side => side_of i side (co_start ms p rt) h) (fun i => made cfg i (co_start ms p rt) h).
Proof.
  induction h as [|x h IH] using rev_ind.
  - split; cbn; done.
  - rewrite run_snoc. unfold side_of, made. rewrite trace_app.
    pose proof (inv_step _ x _ _ IH) as H. revert H. apply inv_ext.
    + intros i side. exact (fold_left_app (word cfg i side) (trace cfg (co_start ms p rt) h) [(co_run cfg (co_start ms p rt) h, x)] ∅).
    + intros i. exact (fold_left_app (makes cfg i) (trace cfg (co_start ms p rt) h) [(co_run cfg (co_start ms p rt) h, x)] None).
Qed.

Lemma motion_in l c v : motion l c = Some v -> (c, v) ∈ l.
Proof.
  induction l as [|[c0 v0] l IH]; cbn; [done|]. destruct (decide (c = c0)) as [->|]; intros H; [injection H as ->; apply elem_of_list_here|].
  by apply elem_of_list_further, IH.
Qed.

Lemma ayes_size co c v F m : votes_ok co c v F m -> len (v_ayes v) = N.of_nat (size (F true)) /\ len (v_nays v) = N.of_nat (size (F false)).
Proof.
  intros [A1 A2 A3 A4 A5 A6 A7 A8]. split.
  - rewrite nodup_size by done. do 2 f_equal. apply set_eq. intros a. rewrite elem_of_list_to_set. apply A4.
  - rewrite nodup_size by done. do 2 f_equal. apply set_eq. intros a. rewrite elem_of_list_to_set. apply A5.
Qed.
Lemma votes_le co c v F m : votes_ok co c v F m -> len (v_ayes v) + len (v_nays v) <= len (co_members co).
Proof.
  intros [A1 A2 A3 A4 A5 A6 A7 A8].
  assert (H : NoDup (v_ayes v ++ v_nays v)) by (apply NoDup_app; split; [done|]; split; [intros a Ha Hb; by apply (A6 a)|done]).
  assert (L : (length (v_ayes v ++ v_nays v) <= length (co_members co))%nat).
  { apply NoDup_incl_length; [by apply NoDup_ListNoDup|]. intros a Ha. apply elem_of_list_In in Ha. apply elem_of_list_In.
    apply elem_of_app in Ha as [Ha|Ha]; [by apply (A7 a true), A4|by apply (A7 a false), A5]. }
  rewrite app_length in L. unfold len. lia.
Qed.

Lemma same_registry_eq s s' : RtFinal.same_registry s s' -> registry s' = registry s.
Proof. intros (E1 & E2 & E3 & E4 & E5). unfold registry. by rewrite E1, E2, E3, E4, E5. Qed.

Lemma carry_ok rt n seats c : carry_out cfg rt n seats c = rt \/ enough c n seats /\ exists g, governance_call c = Some g /\ carry_out cfg rt n seats c = rt_step cfg rt (SGov g).
Proof.
  destruct c as [k name|c|z]; cbn [carry_out enough governance_call]; [| |by left].
  - destruct (N.leb_spec 1 n); [right; eauto|by left].
  - destruct (N.ltb_spec (seats * 1) (n * 2)); [right|by left]. split; [lia|eauto].
Qed.

Lemma registry_lemma ms p rt h x : r_mainnet cfg = true ->
  let s0 := co_start ms p rt in
  let s := co_run cfg s0 h in
  registry (k_rt (co_step cfg s x)) <> registry (k_rt s) ->
  (exists c, x = KRoot c)
  \/ exists c n g, decided cfg s0 h x c n /\ enough c n (len (co_members (k_co s))) /\ governance_call c = Some g
       /\ k_rt (co_step cfg s x) = rt_step cfg (k_rt s) (SGov g).
Proof.
  intros Hm s0 s Hr. destruct x as [x|c|op]; [|by left; eauto|right].
  { destruct Hr. destruct x as [r|t|q|c]; [| | |done]; cbn [co_step k_rt]; apply same_registry_eq, (RtFinal.registry_step cfg _ _ Hm); congruence. }
  cbn [co_step] in *. destruct (co_apply cfg s op) as [s'|] eqn:E; [|done]. unfold co_apply in E.
  destruct op as [who name|who c|who t c|who c j b|c j|c|new q].
  - destruct (msa_dispatch _ _ _ _ _); [|done]. destruct (propose_motion _ _ _ _); [|done]. by injection E as <-.
  - destruct (sc_dispatch _ _ _ _ _) as [sc|] eqn:Ed; [|done]. destruct Hr.
    assert (Q : exists w g, sc = sc_propose (rs_sc (k_rt s)) w g /\ k_rt s' = up_sc_ (k_rt s) sc).
    { unfold sc_dispatch in Ed. destruct (args_ok _ _); [|done]. destruct c; cbn [ensure_signed] in Ed; try done;
        try (destruct (parse_and_verify _ _ _); [|done]); injection Ed as <-; cbn [sc_propose sc_proposals] in E; rewrite last_snoc in E;
        (destruct (propose_motion _ _ _ _); [|done]); injection E as <-; eauto. }
    destruct Q as (w & g & -> & ->). done.
  - destruct (bool_decide _) eqn:Em; [|done]. apply bool_decide_eq_true in Em. destruct (N.ltb_spec t 2).
    + destruct (motion _ _); [done|]. injection E as <-. cbn [k_rt] in *.
      destruct (carry_ok (k_rt s) 1 (len (co_members (k_co s))) c) as [Ec|(He & g & Hg & Ec)]; [by rewrite Ec in Hr|].
      exists c, 1, g. split; [|done]. left. exists who, t. done.
    + destruct (propose_motion _ _ _ _); [|done]. by injection E as <-.
  - destruct (bool_decide _); [|done]. destruct (motion _ _); [|done]. destruct (_ =? _); [|done]. destruct (cast _ _ _); [|done]. by injection E as <-.
  - destruct (motion _ _) as [v|] eqn:Ev; [|done]. destruct (N.eqb_spec (v_index v) j) as [<-|]; [|done].
    destruct (tally _ _ _) as [[n|]|] eqn:Et; [| |done]; injection E as <-; cbn [k_rt] in *; [|done].
    destruct (carry_ok (k_rt s) n (len (co_members (k_co s))) c) as [Ec|(He & g & Hg & Ec)]; [by rewrite Ec in Hr|].
    exists c, n, g. split; [|done]. right.
    pose proof (iv_motion _ _ _ (inv_run ms p rt h) c v Ev) as V. fold s0 s in V.
    destruct (vo_made _ _ _ _ _ V) as (b & seats & y & E1 & E2 & E3 & E4). exists (v_index v), b, seats, y.
    split; [done|]. split; [exact E1|]. split; [done|]. split; [intros a; apply (vo_mem _ _ _ _ _ V a true)|].
    destruct (ayes_size _ _ _ _ _ V) as [Sa Sn]. pose proof (votes_le _ _ _ _ _ V) as L. unfold tally in Et.
    cbv zeta. fold s. change (in_favour cfg (v_index v) s0 h) with (side_of (v_index v) true s0 h). change (against cfg (v_index v) s0 h) with (side_of (v_index v) false s0 h).
    rewrite <- Sa, <- Sn.
    destruct (N.leb_spec (v_threshold v) (len (v_ayes v))); [injection Et as <-; by left|].
    destruct (_ <? _); [done|]. destruct (N.leb_spec (v_end v) (rs_block (k_rt s))) as [Hb|]; [|done].
    destruct (co_prime (k_co s)) as [q|] eqn:Epr; [destruct (bool_decide (q ∈ v_ayes v)) eqn:Eq|].
    + destruct (_ <=? _); [|done]. injection Et as <-. right. rewrite E2 in Hb. split; [exact Hb|]. apply bool_decide_eq_true in Eq. split.
      * exists q. split; [reflexivity|]. by apply (vo_a _ _ _ _ _ V).
      * lia.
    + destruct (_ <=? _); [|done]. injection Et as <-. by left.
    + destruct (_ <=? _); [|done]. injection Et as <-. by left.
  - by injection E as <-.
  - destruct (match q with Some _ => _ | None => _ end); [|done]. by injection E as <-.
Qed.

(** ** C143 *)
Lemma close_lemma ms p rt h c i b seats0 y :
  let s0 := co_start ms p rt in
  let s := co_run cfg s0 h in
  let n := N.of_nat (size (in_favour cfg i s0 h)) in
  open_motion s c i -> made cfg i s0 h = Some (b, seats0, y) -> passes_with y seats0 <= n ->
  exists s', co_apply cfg s (OClose c i) = Ok s' /\ k_rt s' = carry_out cfg (k_rt s) n (len (co_members (k_co s))) c
    /\ motion (co_motions (k_co s')) c = None.
Proof.
  intros s0 s n (v & Hv & Hi) Hm Hn. pose proof (iv_motion _ _ _ (inv_run ms p rt h) c v Hv) as V. fold s0 s in V.
  destruct (vo_made _ _ _ _ _ V) as (b' & seats' & y' & E1 & E2 & E3 & E4). rewrite Hi, Hm in E1. injection E1 as <- <- <-.
  destruct (ayes_size _ _ _ _ _ V) as [Sa Sn].
  assert (Sa' : len (v_ayes v) = n) by (rewrite Sa, Hi; reflexivity).
  unfold co_apply. rewrite Hv, Hi, N.eqb_refl. unfold tally. rewrite E4, Sa'. apply N.leb_le in Hn. rewrite Hn. cbn [k_rt k_co].
  eexists. split; [reflexivity|]. split; [reflexivity|]. cbn [k_co up_motions co_motions]. rewrite motion_remove. by rewrite decide_True.
Qed.

Lemma close_provider ms p rt h i b seats0 who name :
  let s0 := co_start ms p rt in
  let s := co_run cfg s0 h in
  open_motion s (CoProvider who name) i -> made cfg i s0 h = Some (b, seats0, KOp (OProposeProvider who name)) ->
  in_favour cfg i s0 h <> ∅ ->
  exists s', co_apply cfg s (OClose (CoProvider who name) i) = Ok s' /\ k_rt s' = rt_step cfg (k_rt s) (SGov (GProvider who name))
    /\ ~ open_motion s' (CoProvider who name) i.
Proof.
  intros s0 s Ho Hm Hf. assert (L : 1 <= N.of_nat (size (in_favour cfg i s0 h))).
  { destruct (decide (size (in_favour cfg i s0 h) = 0%nat)) as [E|]; [|lia]. destruct Hf. by apply leibniz_equiv, size_empty_iff. }
  destruct (close_lemma ms p rt h _ i b seats0 _ Ho Hm L) as (s' & E1 & E2 & E3). fold s0 s in E1, E2. exists s'. split; [done|].
  cbn [carry_out] in E2. apply N.leb_le in L. rewrite L in E2. split; [done|]. intros (w & Hw & _). congruence.
Qed.

Lemma close_schema ms p rt h i b who q g :
  let s0 := co_start ms p rt in
  let s := co_run cfg s0 h in
  let seats := len (co_members (k_co s)) in
  for_council who q = Some g -> open_motion s (CoSchemas g) i -> made cfg i s0 h = Some (b, seats, KOp (OProposeSchema who q)) ->
  seats < 2 * N.of_nat (size (in_favour cfg i s0 h)) ->
  exists s', co_apply cfg s (OClose (CoSchemas g) i) = Ok s' /\ k_rt s' = rt_step cfg (k_rt s) (SGov (GSchemas false g))
    /\ ~ open_motion s' (CoSchemas g) i.
Proof.
  intros s0 s seats Hg Ho Hm Hf.
  assert (L : seats / 2 + 1 <= N.of_nat (size (in_favour cfg i s0 h))).
  { pose proof (N.div_lt_upper_bound seats 2 (N.of_nat (size (in_favour cfg i s0 h))) ltac:(lia) Hf). lia. }
  destruct (close_lemma ms p rt h _ i b seats _ Ho Hm L) as (s' & E1 & E2 & E3). fold s0 s in E1, E2. fold seats in E2. exists s'. split; [done|].
  cbn [carry_out] in E2. destruct (N.ltb_spec (seats * 1) (N.of_nat (size (in_favour cfg i s0 h)) * 2)); [|lia]. split; [done|]. intros (w & Hw & _). congruence.
Qed.

Lemma motions_bound ms p rt h : len (co_motions (k_co (co_run cfg (co_start ms p rt) h))) <= max_motions.
Proof. exact (iv_len _ _ _ (inv_run ms p rt h)). Qed.

(** Waiting. *)
Lemma wait_lemma n : forall s, let s' := co_run cfg s (replicate n (KRt (SBlock 5))) in
  k_co s' = k_co s /\ rs_sc (k_rt s') = rs_sc (k_rt s) /\ rs_block (k_rt s') = rs_block (k_rt s) + N.of_nat n.
Proof.
  induction n as [|n IH]; intros s; [cbn; split; [done|split; [done|lia]]|].
  change (co_run cfg s (replicate (S n) (KRt (SBlock 5)))) with (co_run cfg (co_step cfg s (KRt (SBlock 5))) (replicate n (KRt (SBlock 5)))).
  destruct (IH (co_step cfg s (KRt (SBlock 5)))) as (E1 & E2 & E3). cbv zeta. rewrite E1, E2, E3. cbn [co_step k_co k_rt rt_step next_block rs_sc rs_block].
  split; [done|]. split; [done|]. lia.
Qed.

(** Five days after it was made, with the prime member in favour and nobody else voting. *)
Lemma prime_alone n ms p rt h g v q :
  let s0 := co_start ms p rt in
  let s := co_run cfg s0 h in
  let h' := h ++ replicate n (KRt (SBlock 5)) in
  let s1 := co_run cfg s0 h' in
  motion (co_motions (k_co s)) (CoSchemas g) = Some v -> co_prime (k_co s) = Some q -> v_ayes v = [q] -> v_nays v = [] ->
  v_end v <= rs_block (k_rt s) + N.of_nat n -> 2 <= v_threshold v <= len (co_members (k_co s)) -> len (co_members (k_co s)) < 2 * len (co_members (k_co s)) ->
  in_favour cfg (v_index v) s0 h' = {[q]} /\ k_co s1 = k_co s
  /\ rs_sc (k_rt (co_step cfg s1 (KOp (OClose (CoSchemas g) (v_index v)))))
     = match sc_dispatch (r_sc cfg) (rs_sc (k_rt s)) ScCouncil false g with Ok x => x | Err _ => rs_sc (k_rt s) end.
Proof.
  intros s0 s h' s1 Hv Hp Ha Hn He Ht Hl.
  assert (Es1 : s1 = co_run cfg s (replicate n (KRt (SBlock 5)))) by (unfold s1, h', co_run; by rewrite fold_left_app).
  destruct (wait_lemma n s) as (E1 & E2 & E3). rewrite <- Es1 in E1, E2, E3.
  assert (Hv1 : motion (co_motions (k_co s1)) (CoSchemas g) = Some v) by (by rewrite E1).
  split; [|split; [done|]].
  - pose proof (iv_motion _ _ _ (inv_run ms p rt h') _ v Hv1) as V. apply leibniz_equiv, set_equiv. intros a.
    pose proof (vo_a _ _ _ _ _ V a) as A. rewrite Ha in A. change (side_of (v_index v) true (co_start ms p rt) h') with (in_favour cfg (v_index v) s0 h') in A.
    rewrite <- A. set_solver.
  - cbn [co_step co_apply]. rewrite Hv1, N.eqb_refl. unfold tally. rewrite E1, Hp, Ha, Hn.
    change (len [q]) with 1. change (len (@nil N)) with 0.
    destruct (N.leb_spec (v_threshold v) 1); [lia|]. destruct (N.ltb_spec (len (co_members (k_co s)) - 0) (v_threshold v)); [lia|].
    assert (Hb : v_end v <= rs_block (k_rt s1)) by (rewrite E3; exact He).
    apply N.leb_le in Hb. rewrite Hb. rewrite bool_decide_true by set_solver.
    replace (1 + (len (co_members (k_co s)) - (1 + 0))) with (len (co_members (k_co s))) by lia.
    destruct (N.leb_spec (v_threshold v) (len (co_members (k_co s)))); [|lia]. cbn [k_rt carry_out].
    destruct (N.ltb_spec (len (co_members (k_co s)) * 1) (len (co_members (k_co s)) * 2)); [|lia].
    cbn [rt_step gov_apply]. rewrite E2. destruct (sc_dispatch _ _ _ _ _); cbn [lift]; [done|exact E2].
Qed.
End council.
