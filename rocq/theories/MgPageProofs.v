(** Paging through messages. *)
From Verif Require Import Prelude CommonTypes MsaModel MgModel MgSpec.

Lemma len_lt_app {A} (l : list A) x : len (l ++ [x]) = len l + 1.
Proof. rewrite len_app, len_cons, len_nil. lia. Qed.

(** The answer when the page ends after index [i] of [block]. *)
Definition ended (r : PageRequest) (content : list MessageResponse) (nb ni : N) : PageResponse :=
  if nb <? rq_to r
  then {| rs_content := content; rs_has_next := true; rs_next_block := Some nb; rs_next_index := Some ni |}
  else {| rs_content := content; rs_has_next := false; rs_next_block := None; rs_next_index := None |}.

Lemma page_list_spec r block size : forall l i content,
  len content < rq_size r -> i + len l = size \/ l = [] ->
  match page_list r block i size l content with
  | inl c' => c' = content ++ l /\ len c' < rq_size r
  | inr a => exists l1 l2, l = l1 ++ l2 /\ l1 <> [] /\ len (content ++ l1) = rq_size r
      /\ ((l2 = [] /\ a = ended r (content ++ l1) (block + 1) 0)
          \/ (l2 <> [] /\ a = ended r (content ++ l1) block (i + len l1)))
  end.
Proof.
  induction l as [|x l IH]; intros i content Hc Hi; cbn [page_list].
  { by rewrite app_nil_r. }
  destruct Hi as [Hi|]; [|done]. rewrite len_cons in Hi. unfold check_end. rewrite len_lt_app.
  destruct (len content + 1 =? rq_size r) eqn:E.
  - destruct l as [|y l].
    + rewrite len_nil in Hi. replace (i + 1 =? size) with true by lia. exists [x], []. rewrite len_lt_app.
      split; [done|]. split; [done|]. split; [lia|]. left. done.
    + rewrite len_cons in Hi. replace (i + 1 =? size) with false by lia. exists [x], (y :: l). rewrite len_lt_app.
      split; [done|]. split; [done|]. split; [lia|]. right. done.
  - specialize (IH (i + 1) (content ++ [x])). rewrite len_lt_app in IH.
    destruct (page_list r block (i + 1) size l (content ++ [x])) as [c'|a].
    + destruct IH as [-> ?]; [lia|left; lia|]. rewrite <- app_assoc in *. done.
    + destruct IH as (l1 & l2 & -> & Hl1 & Hlen & H); [lia|left; lia|].
      exists (x :: l1), l2. rewrite <- app_assoc in *. split; [done|]. split; [done|]. split; [done|].
      cbn [app] in *. rewrite len_cons.
      replace (i + (len l1 + 1)) with (i + 1 + len l1) by lia. done.
Qed.

Definition agree (v v' : N -> list MessageResponse) : Prop :=
  forall b, v' b = v b \/ forall b', b <= b' -> v b' = [].
Lemma agree_refl v : agree v v.
Proof. by left. Qed.
Lemma grown_agree h v v' : grown h v v' -> agree v v'.
Proof.
  intros [H1 H2] b. destruct (N.le_gt_cases b h); [left; auto|right]. intros b' Hb. apply H2. lia.
Qed.

Lemma page_blocks_empty v r : forall n block i content,
  (forall b, block <= b -> v b = []) ->
  page_blocks v r n block i content = {| rs_content := content; rs_has_next := false; rs_next_block := None; rs_next_index := None |}.
Proof.
  induction n as [|n IH]; intros block i content H; [done|].
  cbn [page_blocks]. rewrite (H block) by lia. rewrite drop_nil. cbn [page_list]. apply IH.
  intros b Hb. apply H. lia.
Qed.

Definition rest (v : N -> list MessageResponse) (n : nat) (block i : N) : list MessageResponse :=
  match n with O => [] | S n' => drop (N.to_nat i) (v block) ++ range v (block + 1) n' end.
Lemma rest_zero v n block : rest v n block 0 = range v block n.
Proof. by destruct n. Qed.
Lemma requested_rest v r : rq_from r < rq_to r -> requested v r = rest v (N.to_nat (rq_to r - rq_from r)) (rq_from r) (rq_index r).
Proof.
  intros H. unfold requested, rest. destruct (N.to_nat (rq_to r - rq_from r)) as [|n] eqn:E; [lia|].
  replace (S n - 1)%nat with n by lia. done.
Qed.

Lemma page_blocks_spec v v' r : agree v v' -> forall n block i content a,
  len content < rq_size r -> N.of_nat n = rq_to r - block -> block <= rq_to r ->
  page_blocks v r n block i content = a ->
  (rs_has_next a = false /\ rs_next_block a = None /\ rs_next_index a = None
   /\ rs_content a = content ++ rest v n block i /\ len (rs_content a) <= rq_size r)
  \/ exists nb ni, rs_has_next a = true /\ rs_next_block a = Some nb /\ rs_next_index a = Some ni
     /\ block <= nb < rq_to r /\ len (rs_content a) = rq_size r
     /\ (rs_content a) ++ rest v' (N.to_nat (rq_to r - nb)) nb ni = content ++ rest v' n block i.
Proof.
  intros Hag. induction n as [|n IH]; intros block i content a Hc Hn Hb <-; cbn [page_blocks].
  { left. cbn. rewrite app_nil_r. repeat split; try done. lia. }
  pose proof (page_list_spec r block (len (v block)) (drop (N.to_nat i) (v block)) i content Hc) as Hp.
  assert (Hi : i + len (drop (N.to_nat i) (v block)) = len (v block) \/ drop (N.to_nat i) (v block) = []).
  { destruct (N.le_gt_cases i (len (v block))) as [Hle|Hgt].
    - left. unfold len in *. rewrite drop_length. lia.
    - right. apply drop_ge. unfold len in Hgt. lia. }
  specialize (Hp Hi).
  destruct (page_list r block i (len (v block)) (drop (N.to_nat i) (v block)) content) as [c'|a].
  - destruct Hp as [-> Hl]. destruct (IH (block + 1) 0 (content ++ drop (N.to_nat i) (v block)) _ Hl ltac:(lia) ltac:(lia) eq_refl)
      as [(H1 & H2 & H3 & H4 & H5)|(nb & ni & H1 & H2 & H3 & H4 & H5 & H6)].
    + left. repeat (split; [done|]). split; [|done]. rewrite H4, rest_zero, <- app_assoc. done.
    + right. exists nb, ni. repeat (split; [done|]). split; [lia|]. split; [done|].
      destruct (Hag block) as [Heq|Hemp].
      * rewrite H6. rewrite rest_zero, <- app_assoc. cbn [rest]. by rewrite Heq.
      * exfalso. rewrite page_blocks_empty in H1; [done|]. intros b Hle. apply Hemp. lia.
  - destruct Hp as (l1 & l2 & Hd & Hl1 & Hlen & H).
    assert (Heq : v' block = v block).
    { destruct (Hag block) as [|Hemp]; [done|]. rewrite Hemp, drop_nil in Hd by lia. by destruct l1. }
    destruct H as [[-> ->]|[Hl2 ->]]; unfold ended; destruct (_ <? rq_to r) eqn:E.
    + right. exists (block + 1), 0. cbn. repeat (split; [done|]). split; [lia|]. split; [done|].
      rewrite Heq, Hd, app_nil_r, <- app_assoc. do 2 f_equal. rewrite rest_zero. f_equal. lia.
    + left. cbn. repeat (split; [done|]). split; [|lia].
      assert (n = 0)%nat as -> by lia. cbn [range]. rewrite app_nil_r, Hd, app_nil_r. done.
    + right. exists block, (i + len l1). cbn. repeat (split; [done|]). split; [lia|]. split; [done|].
      rewrite <- app_assoc. f_equal.
      replace (N.to_nat (rq_to r - block)) with (S n) by lia. cbn [rest]. rewrite Heq, Hd, <- app_assoc. f_equal.
      assert (Hdd : drop (N.to_nat (i + len l1)) (v block) = l2).
      { replace (N.to_nat (i + len l1)) with (N.to_nat i + length l1)%nat by (unfold len; lia).
        rewrite <- drop_drop, Hd. by rewrite drop_app_alt. }
      rewrite Hdd. done.
    + lia.
Qed.

Lemma validate_iff r : validate r = true <->
  0 < rq_size r <= 10000 /\ rq_from r < rq_to r /\ rq_to r - rq_from r <= 50000.
Proof. unfold validate, MAX_PAGE_SIZE, MAX_BLOCK_RANGE. rewrite !andb_true_iff. lia. Qed.

Lemma answer_spec v v' r a : agree v v' -> get_messages_by_schema_id true v r = Some a ->
  (follow_up r a = None /\ rs_has_next a = false /\ rs_content a = requested v r /\ len (rs_content a) <= rq_size r)
  \/ exists r', follow_up r a = Some r' /\ validate r' = true /\ rq_size r' = rq_size r /\ rq_to r' = rq_to r /\ rq_from r <= rq_from r'
     /\ len (rs_content a) = rq_size r /\ rs_content a ++ requested v' r' = requested v' r.
Proof.
  intros Hag H. unfold get_messages_by_schema_id in H. destruct (validate r) eqn:Hv; [|done]. inversion H as [Ha]; clear H.
  pose proof (proj1 (validate_iff r) Hv) as (Hs & Hft & Hr).
  destruct (page_blocks_spec v v' r Hag (N.to_nat (rq_to r - rq_from r)) (rq_from r) (rq_index r) [] _ ltac:(rewrite len_nil; lia) ltac:(rewrite N2Nat.id; lia) ltac:(lia) Ha)
    as [(H1 & H2 & H3 & H4 & H5)|(nb & ni & H1 & H2 & H3 & H4 & H5 & H6)]; rewrite Ha.
  - left. unfold follow_up. rewrite H1. rewrite requested_rest by done. done.
  - right. exists {| rq_from := nb; rq_index := ni; rq_to := rq_to r; rq_size := rq_size r |}.
    unfold follow_up. rewrite H1, H2, H3. split; [done|]. split; [apply validate_iff; cbn; lia|].
    cbn [rq_size rq_to rq_from]. repeat (split; [done || lia|]).
    rewrite !requested_rest by (cbn; lia). cbn [rq_from rq_to rq_index]. rewrite H6. done.
Qed.

Lemma paged_content views r l : paged views r l ->
  StronglySorted (fun v v' => exists h, grown h v v') views ->
  forall v, last views = Some v -> concat (map rs_content l) = requested v r.
Proof.
  induction 1 as [view r a Ha Hf|view views r a r' l Ha Hf Hp IH]; intros Hs v Hv.
  - injection Hv as <-. cbn. rewrite app_nil_r.
    destruct (answer_spec view view r a (agree_refl _) Ha) as [(_ & _ & H & _)|(r' & H & _)]; [done|congruence].
  - assert (Hv' : last views = Some v). { inversion Hp; subst; exact Hv. }
    apply StronglySorted_inv in Hs as [Hs Hall]. cbn [map concat]. rewrite (IH Hs v Hv').
    assert (v ∈ views) as Hin.
    { apply last_Some in Hv' as [l' ->]. apply elem_of_app. right. by left. }
    rewrite Forall_forall in Hall. destruct (Hall v Hin) as [h Hg].
    destruct (answer_spec view v r a (grown_agree _ _ _ Hg) Ha) as [(H & _)|(r'' & H & _ & _ & _ & _ & _ & Heq)]; congruence.
Qed.

Lemma paged_const view r l n : paged (replicate n view) r l -> concat (map rs_content l) = requested view r.
Proof.
  intros H. remember (replicate n view) as views eqn:E. revert n E.
  induction H as [v r a Ha Hf|v views r a r' l Ha Hf Hp IH]; intros n E.
  - destruct n; [done|]. injection E as -> _. cbn. rewrite app_nil_r.
    destruct (answer_spec view view r a (agree_refl _) Ha) as [(_ & _ & H & _)|(r' & H & _)]; [done|congruence].
  - destruct n; [done|]. injection E as -> E. cbn [map concat]. rewrite (IH n E).
    destruct (answer_spec view view r a (agree_refl _) Ha) as [(H & _)|(r'' & H & _ & _ & _ & _ & _ & Heq)]; congruence.
Qed.

Lemma paged_sizes views r l : paged views r l ->
  exists l' a, l = l' ++ [a] /\ Forall (fun a => len (rs_content a) = rq_size r /\ rs_has_next a = true) l'
    /\ len (rs_content a) <= rq_size r /\ rs_has_next a = false.
Proof.
  induction 1 as [v r a Ha Hf|v views r a r' l Ha Hf Hp IH].
  - destruct (answer_spec v v r a (agree_refl _) Ha) as [(_ & Hn & H & Hl)|(r' & H & _)]; [|congruence].
    by exists [], a.
  - destruct (answer_spec v v r a (agree_refl _) Ha) as [(H & _)|(r'' & H & _ & Hsz & _ & _ & Hl & Heq)]; [congruence|].
    assert (r'' = r') as -> by congruence.
    destruct IH as (l' & a' & -> & Hf' & Hle & Hn). rewrite Hsz in *.
    exists (a :: l'), a'. repeat (split; [done|]). split; [|done]. constructor; [|done]. split; [done|].
    unfold follow_up in Hf. by destruct (rs_has_next a).
Qed.

Lemma paged_exists view r : validate r = true -> exists n l, paged (replicate n view) r l.
Proof.
  remember (length (requested view r)) as k eqn:Ek. revert r Ek.
  induction (lt_wf k) as [k _ IH]. intros r -> Hv.
  destruct (get_messages_by_schema_id true view r) as [a|] eqn:Ha; [|unfold get_messages_by_schema_id in Ha; by rewrite Hv in Ha].
  destruct (answer_spec view view r a (agree_refl _) Ha) as [(Hf & _)|(r' & Hf & Hv' & Hsz & _ & _ & Hl & Heq)].
  - exists 1%nat, [a]. by constructor.
  - assert (length (requested view r') < length (requested view r))%nat as Hlt.
    { rewrite <- Heq, app_length. apply validate_iff in Hv. unfold len in Hl. lia. }
    destruct (IH _ Hlt r' eq_refl Hv') as (n & l & Hp). exists (S n), (a :: l). cbn. by apply Paged_more with r'.
Qed.

(** Every answer, even alone: at most a page, a prefix of what was asked. *)
Lemma answer_prefix v r a : get_messages_by_schema_id true v r = Some a ->
  len (rs_content a) <= rq_size r /\ (rs_content a) `prefix_of` (requested v r).
Proof.
  intros Ha. destruct (answer_spec v v r a (agree_refl _) Ha) as [(_ & _ & H & Hl)|(r' & _ & _ & _ & _ & _ & Hl & Heq)].
  - rewrite H. rewrite H in Hl. by split.
  - split; [lia|]. rewrite <- Heq. by apply prefix_app_r.
Qed.
