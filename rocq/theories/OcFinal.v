(** The invariant of the off-chain key index. *)
From Verif Require Import Prelude SigModel MsaModel MsaSpec MsaProofs OcModel OcSpec OcProofs.

(** ** Events per block *)
Definition cat (bl : N -> list KeyEvent) (n : N) : list KeyEvent := concat (map bl (seqN 1 n)).
Lemma seqN_S a n : seqN a (n + 1) = seqN a n ++ [a + n].
Proof. unfold seqN. replace (N.to_nat (n + 1)) with (S (N.to_nat n)) by lia. rewrite seq_S, fmap_app. cbn. by rewrite N2Nat.id. Qed.
Lemma seqN_cons a n : seqN a (n + 1) = a :: seqN (a + 1) n.
Proof.
  unfold seqN. replace (N.to_nat (n + 1)) with (S (N.to_nat n)) by lia. cbn [seq]. rewrite fmap_cons, <- seq_shift, <- list_fmap_compose.
  f_equal; [lia|]. apply list_fmap_ext. intros i. cbn. lia.
Qed.
Lemma seqN_0 a : seqN a 0 = []. Proof. done. Qed.
Lemma cat_S bl n : cat bl (n + 1) = cat bl n ++ bl (n + 1).
Proof. unfold cat. rewrite seqN_S, map_app, concat_app. cbn. rewrite app_nil_r. by replace (1 + n) with (n + 1) by lia. Qed.
Lemma cat_ext bl bl' n : (forall b, 1 <= b <= n -> bl b = bl' b) -> cat bl n = cat bl' n.
Proof. induction n as [|n IH] using N.peano_ind; intros H; [done|]. rewrite <- N.add_1_r, !cat_S, H by lia. f_equal. apply IH. intros. apply H. lia. Qed.
Lemma cat_untouched bl m k p a n : a <= n -> (forall b, a < b <= n -> touched (bl b) m k = false) -> after (cat bl n) m k p = after (cat bl a) m k p.
Proof.
  induction n as [|n IH] using N.peano_ind; intros Ha H; [by replace a with 0 by lia|]. rewrite <- N.add_1_r in *.
  destruct (decide (a = n + 1)) as [->|]; [done|]. rewrite cat_S, after_app, after_untouched by (apply H; lia). apply IH; [lia|]. intros. apply H. lia.
Qed.

Definition logged (db : OcDb) (b : N) (evs : list KeyEvent) (c : nat) : Prop :=
  (c <= length evs)%nat /\
  (oc_counts db !! b = Some (len evs) /\ (forall i, (i < length evs)%nat -> oc_events db !! (b, 1 + N.of_nat i) = if (i <? c)%nat then None else evs !! i)
   \/ oc_counts db !! b = None /\ c = length evs).
Lemma read_logged db b evs c : logged db b evs c -> read_offchain_events db b = drop c evs.
Proof.
  intros [Hc [[E H]|[E ->]]]; unfold read_offchain_events; rewrite E; cbn [default].
  - unfold len, id. rewrite seqN_len. by apply omap_seq.
  - rewrite drop_all. done.
Qed.
Lemma read_ext db db' b : oc_counts db !! b = oc_counts db' !! b -> (forall i, oc_events db !! (b, i) = oc_events db' !! (b, i)) ->
  read_offchain_events db b = read_offchain_events db' b.
Proof. intros E H. unfold read_offchain_events. rewrite E. apply list_omap_ext. apply Forall2_same_length_lookup_2; [done|]. intros i x y Hx Hy. rewrite Hx in Hy. injection Hy as ->. apply H. Qed.
Lemma logged_ext db db' b evs c : oc_counts db !! b = oc_counts db' !! b -> (forall i, oc_events db !! (b, i) = oc_events db' !! (b, i)) ->
  logged db b evs c -> logged db' b evs c.
Proof. intros E H [Hc [[E' H']|[E' ->]]]; (split; [done|]); [left|right]; rewrite <- E; (split; [done|]); [|done]. intros i Hi. rewrite <- H. by apply H'. Qed.

Definition idx (db : OcDb) (m : N) : list N := default [] (oc_keys db !! m).

Section inv.
Context (cleans : bool) (bl : N -> list KeyEvent) (B : N).
Notation read := read_offchain_events.
Definition on (m k : N) : Prop := after (cat bl B) m k false = true.
Definition agree (db : OcDb) (L : N) : Prop := forall m k, (forall b, L < b <= B -> touched (read db b) m k = false) ->
  (k ∈ idx db m -> on m k) /\ (oc_initial db = true -> on m k -> k ∈ idx db m).
Record D (F : N) (db : OcDb) (L S M : N) : Prop := {
  d_above : forall b, B < b -> oc_counts db !! b = None;
  d_log : forall b, 1 <= b <= B -> exists c, logged db b (bl b) c;
  d_nodup : forall m, NoDup (idx db m);
  d_S : 1 <= S /\ S <= L + 1 /\ S <= F /\ L <= M /\ M <= F;
  d_clean : cleans = true -> forall b, S <= b <= M -> read db b = [];
  d_full : forall b, 1 <= b <= B -> M + 1 < b \/ F < b \/ cleans = false -> read db b = bl b;
  d_agree : agree db L
}.
Definition ok (F : N) (db : OcDb) : Prop :=
  match oc_last db with
  | None => oc_initial db = false /\ oc_keys db = ∅ /\ (forall b, B < b -> oc_counts db !! b = None) /\ forall b, 1 <= b <= B -> logged db b (bl b) 0
  | Some L => exists S M, D F db L S M
  end.

(** *** Sequences of writes *)
Definition runw (db : OcDb) (ws : list Write) : OcDb := fold_left (exec_write cleans) ws db.
Definition along (P : OcDb -> Prop) (db : OcDb) (ws : list Write) : Prop := forall n, P (runw db (take n ws)).
Lemma along_nil (P : OcDb -> Prop) db : P db -> along P db [].
Proof. intros H n. by rewrite take_nil. Qed.
Lemma along_cons (P : OcDb -> Prop) db w ws : P db -> along P (exec_write cleans db w) ws -> along P db (w :: ws).
Proof. intros H1 H2 [|n]; [done|]. exact (H2 n). Qed.
Lemma along_app (P : OcDb -> Prop) db ws1 : forall ws2, along P db ws1 -> along P (runw db ws1) ws2 -> along P db (ws1 ++ ws2).
Proof.
  intros ws2 H1 H2 n. destruct (decide (n <= length ws1)%nat).
  - rewrite take_app_le by done. apply H1.
  - rewrite take_app_ge by lia. unfold runw. rewrite fold_left_app. apply H2.
Qed.
Lemma runw_app db a b : runw db (a ++ b) = runw (runw db a) b.
Proof. unfold runw. by rewrite fold_left_app. Qed.

(** *** Writing keys *)
Lemma keys_read db m es b : read (exec_write cleans db (WKeys m es)) b = read db b.
Proof. done. Qed.
Lemma idx_keys db m es m' : idx (exec_write cleans db (WKeys m es)) m' = if decide (m' = m) then fold_left process_key_event es (idx db m) else idx db m'.
Proof.
  unfold idx. cbn. destruct (decide (m' = m)) as [->|]; [by rewrite lookup_insert|by rewrite lookup_insert_ne].
Qed.
Lemma filter_msa m evs : Forall (fun e => ev_msa e = m) (filter (fun e => ev_msa e = m) evs).
Proof. apply Forall_forall. intros e. rewrite elem_of_list_filter; tauto. Qed.
Lemma after_cons e evs m k p : after (e :: evs) m k p = after evs m k (if aboutb m k e then is_add e else p).
Proof. done. Qed.
Lemma after_filter m k evs : forall p, after (filter (fun e => ev_msa e = m) evs) m k p = after evs m k p.
Proof.
  induction evs as [|e evs IH]; intros p; [done|]. rewrite after_cons, <- IH. destruct (decide (ev_msa e = m)) as [E|E].
  - by rewrite filter_cons_True, after_cons.
  - rewrite filter_cons_False by done. unfold aboutb. by rewrite (proj2 (N.eqb_neq _ _)).
Qed.

Lemma D_keys F db L S M m es : L + 1 <= B -> es = filter (fun e => ev_msa e = m) (read db (L + 1)) -> D F db L S M -> D F (exec_write cleans db (WKeys m es)) L S M.
Proof.
  intros Hb -> []. split; try done.
  - intros m'. rewrite idx_keys. destruct (decide _) as [->|]; [|done]. by apply process_nodup.
  - intros m' k H. specialize (d_agree0 m' k H). rewrite idx_keys. cbn [exec_write up_keys oc_initial]. destruct (decide (m' = m)) as [->|]; [|done].
    rewrite (process_in m k) by apply filter_msa. rewrite after_filter, after_untouched by (apply H; lia). by rewrite bool_decide_eq_true.
Qed.
Lemma D_groups F L S M evs : forall gs db, L + 1 <= B -> (forall m es, (m, es) ∈ gs -> es = filter (fun e => ev_msa e = m) evs) -> evs = read db (L + 1) ->
  D F db L S M -> oc_last db = Some L -> along (ok F) db (map (fun '(m, es) => WKeys m es) gs).
Proof.
  induction gs as [|[m es] gs IH]; intros db Hb Hg He HD HL; cbn [map].
  - apply along_nil. unfold ok. rewrite HL. eauto.
  - apply along_cons; [unfold ok; rewrite HL; eauto|]. apply IH; [done| | | |done].
    + intros m' es' H. apply Hg. by constructor.
    + by rewrite keys_read.
    + apply D_keys; [done| |done]. rewrite <- He. apply Hg. constructor.
Qed.
Lemma groups_run gs : forall db, StronglySorted N.lt gs.*1 ->
  let db' := runw db (map (fun '(m, es) => WKeys m es) gs) in
  oc_events db' = oc_events db /\ oc_counts db' = oc_counts db /\ oc_initial db' = oc_initial db /\ oc_last db' = oc_last db
  /\ forall m, idx db' m = fold_left process_key_event (assoc gs m) (idx db m).
Proof.
  induction gs as [|[m es] gs IH]; intros db Hs; [done|]. cbn [map]. inversion Hs as [|? ? H1 H2]; subst.
  destruct (IH (exec_write cleans db (WKeys m es)) H1) as (E1 & E2 & E3 & E4 & E5). cbn zeta. split; [exact E1|]. split; [exact E2|]. split; [exact E3|].
  split; [exact E4|]. intros m'. change (runw db (WKeys m es :: map (fun '(m, es) => WKeys m es) gs)) with (runw (exec_write cleans db (WKeys m es)) (map (fun '(m, es) => WKeys m es) gs)).
  rewrite E5, idx_keys. cbn [assoc]. destruct (decide (m' = m)) as [->|Hm].
  - rewrite N.eqb_refl. replace (assoc gs m) with ([] : list KeyEvent); [done|].
    clear -H2. induction gs as [|[m1 es'] gs IH]; [done|]. cbn. cbn in H2. apply Forall_cons in H2 as [H2 H3]. destruct (N.eqb_spec m m1); [lia|]. by apply IH.
  - by rewrite (proj2 (N.eqb_neq _ _)).
Qed.

(** After all of a block's events the index agrees up to that block. *)
Lemma agree_groups F db L S M : L + 1 <= B -> L + 1 <= F -> D F db L S M ->
  agree (runw db (map (fun '(m, es) => WKeys m es) (events_by_msa_id (read db (L + 1))))) (L + 1).
Proof.
  intros Hb HF HD. destruct (groups_ok (read db (L + 1))) as [Hs Ha].
  destruct (groups_run _ db Hs) as (E1 & E2 & E3 & _ & E5). set (db' := runw db _) in *.
  assert (Hread : forall b, read db' b = read db b). { intros b. apply read_ext; [by rewrite E2|by rewrite E1]. }
  intros m k H. rewrite E3, E5, Ha, (process_in m k) by apply filter_msa. rewrite after_filter.
  destruct (touched (read db (L + 1)) m k) eqn:Et.
  - assert (Hfull : forall b, 1 <= b <= B -> L + 1 < b -> touched (bl b) m k = false).
    { intros b Hb1 Hb2. rewrite <- (H b) by lia. rewrite Hread. f_equal. symmetry. eapply d_full; [exact HD|done|].
      destruct cleans eqn:Ec; [left|by right; right]. pose proof (d_S _ _ _ _ _ HD).
      destruct (decide (L + 1 <= M)) as [Hm|Hm]; [|lia]. rewrite (d_clean _ _ _ _ _ HD Ec (L + 1)) in Et by lia. done. }
    assert (E : after (read db (L + 1)) m k (bool_decide (k ∈ idx db m)) = after (cat bl B) m k false).
    { rewrite (cat_untouched bl m k false (L + 1) B) by (try lia; intros b Hb'; apply Hfull; lia). rewrite cat_S, after_app.
      destruct (d_log _ _ _ _ _ HD (L + 1)) as [c Hc]; [lia|]. rewrite (read_logged _ _ _ _ Hc) in *.
      rewrite <- (take_drop c (bl (L + 1))) at 2. rewrite after_app. by apply after_touched. }
    unfold on. rewrite E. split; [done|]. done.
  - rewrite after_untouched by done. rewrite bool_decide_eq_true. apply (d_agree _ _ _ _ _ HD). intros b Hb'. destruct (decide (b = L + 1)) as [->|]; [done|].
    rewrite <- Hread. apply H. lia.
Qed.

(** *** Clearing a block's events *)
Lemma agree_weaken db L L' : L <= L' -> agree db L' -> agree db L.
Proof. intros HL H m k Hm. apply H. intros b Hb. apply Hm. lia. Qed.
Lemma logged_clear db b evs c n : cleans = true -> (n <= c)%nat -> (n < length evs)%nat -> logged db b evs c ->
  logged (exec_write cleans db (WClear b (1 + N.of_nat n))) b evs (Nat.max c (S n)).
Proof.
  intros -> Hn Hl [Hc H]. split; [lia|]. destruct H as [[E H]|[E ->]]; [left|right; split; [done|lia]]. split; [done|]. intros i Hi. cbn [exec_write up_events oc_events].
  destruct (decide (i = n)) as [->|Hin].
  - rewrite lookup_delete. destruct (Nat.ltb_spec n (Nat.max c (S n))); [auto|lia].
  - rewrite lookup_delete_ne by (intros [=]; lia). rewrite H by done. destruct (Nat.ltb_spec i c), (Nat.ltb_spec i (Nat.max c (S n))); try done; lia.
Qed.
Definition beside (b : N) (db db' : OcDb) : Prop :=
  (forall b', b' <> b -> oc_counts db' !! b' = oc_counts db !! b') /\ (forall b' i, b' <> b -> oc_events db' !! (b', i) = oc_events db !! (b', i))
  /\ oc_keys db' = oc_keys db /\ oc_initial db' = oc_initial db /\ oc_last db' = oc_last db.
Lemma beside_trans b x y z : beside b x y -> beside b y z -> beside b x z.
Proof.
  intros (A1 & A2 & A3 & A4 & A5) (B1 & B2 & B3 & B4 & B5). split; [intros; by rewrite B1, A1|]. split; [intros; by rewrite B2, A2|].
  split; [congruence|]. split; congruence.
Qed.
Lemma beside_clear b i db : beside b db (exec_write cleans db (WClear b i)).
Proof. unfold exec_write. destruct cleans; [|done]. split; [done|]. split; [|done]. intros b' j Hb. cbn. apply lookup_delete_ne. congruence. Qed.
Lemma beside_count b db : beside b db (exec_write cleans db (WClearCount b)).
Proof. unfold exec_write. destruct cleans; [|done]. split; [|done]. intros b' Hb. cbn. apply lookup_delete_ne. congruence. Qed.
Lemma D_beside F db db' b L S M c : beside b db db' -> logged db' b (bl b) c -> b <= B -> b = L + 1 -> b <= F -> M < b ->
  (cleans = false -> db' = db) -> agree db b -> D F db L S M -> D F db' L S M /\ agree db' b.
Proof.
  intros (H1 & H2 & H3 & H4 & H5) Hl HB Hb HF HM Hcl Ha HD.
  assert (Hr : forall b', b' <> b -> read db' b' = read db b').
  { intros b' Hb'. apply read_ext; [by apply H1|]. intros i. by apply H2. }
  assert (Ha' : agree db' b).
  { intros m k Hm. unfold idx. rewrite H3, H4. apply Ha. intros b' Hb'. rewrite <- Hr by lia. by apply Hm. }
  split; [|done]. destruct HD. split.
  - intros b' Hb'. rewrite H1 by lia. by apply d_above0.
  - intros b' Hb'. destruct (decide (b' = b)) as [->|Hn]; [eauto|]. destruct (d_log0 b' Hb') as [c' Hc']. exists c'. eapply logged_ext; [| |exact Hc'].
    + by rewrite H1.
    + intros i. by rewrite H2.
  - intros m. unfold idx. rewrite H3. apply d_nodup0.
  - done.
  - intros Hc b' Hb'. rewrite Hr by lia. by apply d_clean0.
  - intros b' Hb' Hor. destruct (decide (b' = b)) as [->|Hn]; [|rewrite Hr by done; by apply d_full0].
    destruct Hor as [Hor|[Hor|Hor]]; [lia|lia|]. rewrite (Hcl Hor). apply d_full0; [lia|]. by right; right.
  - apply agree_weaken with b; [lia|done].
Qed.
Lemma clear_run b evs : forall n db c, cleans = true -> (n <= length evs)%nat -> logged db b evs c ->
  let db' := runw db (map (WClear b) (seqN 1 (N.of_nat n))) in beside b db db' /\ exists c', (n <= c')%nat /\ logged db' b evs c'.
Proof.
  induction n as [|n IH]; intros db c Hcl Hn Hl.
  - split; [done|]. exists c. split; [lia|done].
  - replace (N.of_nat (S n)) with (N.of_nat n + 1) by lia. rewrite seqN_S, map_app, runw_app. destruct (IH db c Hcl ltac:(lia) Hl) as (H1 & c' & H2 & H3).
    cbn zeta. cbn [map runw fold_left]. split; [eapply beside_trans; [exact H1|apply beside_clear]|].
    exists (Nat.max c' (S n)). split; [lia|]. apply logged_clear; [done|lia|lia|done].
Qed.
Lemma map_take_ {A C} (f : A -> C) n l : map f (take n l) = take n (map f l).
Proof. exact (fmap_take f n l). Qed.
Lemma noclear_run b l : cleans = false -> forall db, runw db (map (WClear b) l) = db.
Proof. intros Hc. induction l as [|i l IH]; intros db; [done|]. cbn [map]. change (runw (exec_write cleans db (WClear b i)) (map (WClear b) l) = db). rewrite IH. cbn. by rewrite Hc. Qed.

(** Any number of clears, also with the count. *)
Lemma clear_D F db L S M n : L + 1 <= B -> L + 1 <= F -> M < L + 1 -> (n <= length (bl (L + 1)))%nat -> agree db (L + 1) -> D F db L S M ->
  let db' := runw db (map (WClear (L + 1)) (seqN 1 (N.of_nat n))) in
  beside (L + 1) db db' /\ D F db' L S M /\ agree db' (L + 1).
Proof.
  intros HB HF HM Hn Ha HD. destruct (d_log _ _ _ _ _ HD (L + 1)) as [c Hc]; [lia|]. cbn zeta. destruct cleans eqn:Ec.
  - try rewrite <- Ec in *. destruct (clear_run (L + 1) (bl (L + 1)) n db c Ec Hn Hc) as (H1 & c' & _ & H3). split; [done|].
    eapply D_beside; [exact H1|exact H3|lia|done|lia|lia| |done|done]. congruence.
  - try rewrite <- Ec in *. rewrite noclear_run by done. done.
Qed.
Lemma clears_along F db L S M n : L + 1 <= B -> L + 1 <= F -> M < L + 1 -> (n <= length (bl (L + 1)))%nat -> agree db (L + 1) -> D F db L S M -> oc_last db = Some L ->
  along (ok F) db (map (WClear (L + 1)) (seqN 1 (N.of_nat n))).
Proof.
  intros HB HF HM Hn Ha HD HL. induction n as [|n IH].
  - apply along_nil. unfold ok. rewrite HL. eauto.
  - replace (N.of_nat (Datatypes.S n)) with (N.of_nat n + 1) by lia. rewrite seqN_S, map_app. apply along_app; [apply IH; lia|].
    destruct (clear_D F db L S M n) as ((_ & _ & _ & _ & E1) & D1 & _); try done; [lia|].
    destruct (clear_D F db L S M (Datatypes.S n)) as ((_ & _ & _ & _ & E2) & D2 & _); try done.
    apply along_cons; [unfold ok; rewrite E1, HL; eauto|]. apply along_nil.
    replace (exec_write cleans (runw db (map (WClear (L + 1)) (seqN 1 (N.of_nat n)))) (WClear (L + 1) (1 + N.of_nat n)))
      with (runw db (map (WClear (L + 1)) (seqN 1 (N.of_nat (Datatypes.S n))))).
    + unfold ok. rewrite E2, HL. eauto.
    + replace (N.of_nat (Datatypes.S n)) with (N.of_nat n + 1) by lia. by rewrite seqN_S, map_app, runw_app.
Qed.

(** *** One block, then many *)
Definition clear_writes (db : OcDb) (b : N) : list Write :=
  match read db b with [] => [] | _ => map (WClear b) (seqN 1 (default 0 (oc_counts db !! b))) ++ [WClearCount b] end.
Lemma read_empty_count db b : oc_counts db !! b = None -> read db b = [].
Proof. intros E. unfold read_offchain_events. by rewrite E. Qed.
Lemma clear_writes_ok F db0 db L S M : L + 1 <= B -> L + 1 <= F -> agree db (L + 1) -> D F db L S M -> oc_last db = Some L ->
  read db0 (L + 1) = read db (L + 1) -> oc_counts db0 !! (L + 1) = oc_counts db !! (L + 1) ->
  along (ok F) db (clear_writes db0 (L + 1)) /\
  let db' := runw db (clear_writes db0 (L + 1)) in
  beside (L + 1) db db' /\ D F db' L S M /\ agree db' (L + 1) /\ (cleans = true -> read db' (L + 1) = []).
Proof.
  intros HB HF Ha HD HL E1 E2. unfold clear_writes. rewrite E1, E2.
  destruct (read db (L + 1)) as [|e es] eqn:Er.
  { split; [apply along_nil; unfold ok; rewrite HL; eauto|]. cbn. done. }
  destruct (d_log _ _ _ _ _ HD (L + 1)) as [c Hc]; [lia|]. pose proof (d_S _ _ _ _ _ HD) as HS.
  destruct (oc_counts db !! (L + 1)) as [n|] eqn:En; [|rewrite (read_empty_count _ _ En) in Er; done].
  assert (n = len (bl (L + 1))) as ->. { destruct Hc as [_ [[E _]|[E _]]]; congruence. }
  cbn [default]. unfold id, len.
  destruct cleans eqn:Ec.
  - try rewrite <- Ec in *.
    assert (HM : M < L + 1). { destruct (decide (L + 1 <= M)); [|lia]. rewrite (d_clean _ _ _ _ _ HD Ec (L + 1)) in Er by lia. done. }
    destruct (clear_D F db L S M (length (bl (L + 1)))) as (B1 & D1 & A1); try done.
    set (db1 := runw db _) in *.
    assert (B2 : beside (L + 1) db1 (exec_write cleans db1 (WClearCount (L + 1)))) by apply beside_count.
    assert (Hnone : oc_counts (exec_write cleans db1 (WClearCount (L + 1))) !! (L + 1) = None).
    { unfold exec_write. rewrite Ec. cbn. apply lookup_delete. }
    destruct (D_beside F db1 (exec_write cleans db1 (WClearCount (L + 1))) (L + 1) L S M (length (bl (L + 1)))) as [D2 A2]; try done; try lia.
    { split; [lia|]. right. done. }
    rewrite runw_app. fold db1. split.
    + apply along_app; [by apply clears_along with S M|]. fold db1. apply along_cons.
      * unfold ok. destruct B1 as (_ & _ & _ & _ & ->). rewrite HL. eauto.
      * apply along_nil. unfold ok. destruct B2 as (_ & _ & _ & _ & ->). destruct B1 as (_ & _ & _ & _ & ->). rewrite HL. eauto.
    + split; [by eapply beside_trans|]. split; [done|]. split; [done|]. intros _. by apply read_empty_count.
  - try rewrite <- Ec in *. rewrite runw_app, noclear_run by done. split.
    + intros n. rewrite firstn_app, runw_app, <- map_take_. rewrite noclear_run by done. destruct (n - _)%nat; cbn.
      * unfold ok. rewrite HL. eauto.
      * rewrite take_nil. cbn. unfold exec_write. rewrite Ec. unfold ok. rewrite HL. eauto.
    + cbn [runw fold_left]. unfold exec_write. rewrite Ec. done.
Qed.

Definition same_log (b : N) (x y : OcDb) : Prop := read x b = read y b /\ oc_counts x !! b = oc_counts y !! b.
Lemma block_writes_eq db b : block_writes db b = map (fun '(m, es) => WKeys m es) (events_by_msa_id (read db b)) ++ clear_writes db b ++ [WLast b].
Proof. unfold block_writes, clear_writes. done. Qed.
Lemma block_writes_same x y b : same_log b x y -> block_writes x b = block_writes y b.
Proof. intros [E1 E2]. unfold block_writes. by rewrite E1, E2. Qed.

Lemma block_ok F db L S M : L + 1 <= B -> L + 1 <= F -> D F db L S M -> oc_last db = Some L ->
  along (ok F) db (block_writes db (L + 1)) /\
  let db' := runw db (block_writes db (L + 1)) in
  oc_last db' = Some (L + 1) /\ oc_initial db' = oc_initial db /\ (exists M', D F db' (L + 1) S M') /\ (forall b, b <> L + 1 -> same_log b db' db).
Proof.
  intros HB HF HD HL. rewrite block_writes_eq. set (ks := map (fun '(m, es) => WKeys m es) (events_by_msa_id (read db (L + 1)))).
  destruct (groups_ok (read db (L + 1))) as [Hs _]. destruct (groups_run _ db Hs) as (E1 & E2 & E3 & E4 & _). fold ks in E1, E2, E3, E4.
  assert (Ak : along (ok F) db ks). { eapply D_groups; [exact HB| |reflexivity|exact HD|exact HL]. intros m es. apply groups_in. }
  assert (D1 : D F (runw db ks) L S M).
  { specialize (Ak (length ks)). rewrite take_ge in Ak by lia. clear Ak.
    unfold ks. clear E1 E2 E3 E4 ks. assert (G : forall m es, (m, es) ∈ events_by_msa_id (read db (L + 1)) -> es = filter (fun e => ev_msa e = m) (read db (L + 1))) by apply groups_in.
    revert HD G. generalize (events_by_msa_id (read db (L + 1))). intros gs. remember (read db (L + 1)) as evs eqn:He. clear HL Hs. revert db He.
    induction gs as [|[m es] gs IH]; intros db He HD G; [done|]. cbn [map]. change (D F (runw (exec_write cleans db (WKeys m es)) (map (fun '(m, es) => WKeys m es) gs)) L S M).
    apply IH; [done| |].
    - apply D_keys; [done| |done]. rewrite <- He. apply G. constructor.
    - intros m' es' H. apply G. by constructor. }
  pose proof (agree_groups F db L S M HB HF HD) as A1. fold ks in A1. set (db1 := runw db ks) in *.
  assert (R1 : forall b, same_log b db1 db). { intros b. split; [|by rewrite E2]. apply read_ext; [by rewrite E2|by rewrite E1]. }
  destruct (clear_writes_ok F db db1 L S M HB HF A1 D1) as (Ac & Bc & D2 & A2 & Hr); [by rewrite E4|symmetry; apply (R1 (L + 1))|symmetry; apply (R1 (L + 1))|].
  set (db2 := runw db1 (clear_writes db (L + 1))) in *.
  assert (R2 : forall b, b <> L + 1 -> same_log b db2 db).
  { intros b Hb. destruct Bc as (B1 & B2 & _). destruct (R1 b) as [R1a R1b]. split; [|by rewrite B1]. rewrite <- R1a. apply read_ext; [by apply B1|]. intros i. by apply B2. }
  destruct Bc as (_ & _ & Bk & Bi & Bl).
  assert (D3 : D F (exec_write cleans db2 (WLast (L + 1))) (L + 1) S (N.max M (L + 1))).
  { destruct D2. split; try done.
    - lia.
    - intros Hc b Hb. destruct (decide (b = L + 1)) as [->|Hn]; [by apply Hr|]. apply (d_clean0 Hc). lia.
    - intros b Hb Hor. apply (d_full0 b Hb). lia. }
  split.
  - apply along_app; [done|]. fold db1. apply along_app; [done|]. fold db2. apply along_cons; [unfold ok; rewrite Bl, E4, HL; eauto|].
    apply along_nil. unfold ok. cbn [exec_write up_last oc_last]. eauto.
  - cbn zeta. rewrite !runw_app. fold db1. fold db2. cbn [runw fold_left]. split; [done|]. split; [cbn; by rewrite Bi, E3|]. split; [eauto|].
    intros b Hb. apply (R2 b Hb).
Qed.

Lemma apply_ok F db0 n : forall db L S M, L + n <= B -> L + n <= F -> D F db L S M -> oc_last db = Some L -> (forall b, L < b -> same_log b db db0) ->
  let ws := concat (map (block_writes db0) (seqN (L + 1) n)) in
  along (ok F) db ws /\ oc_last (runw db ws) = Some (L + n) /\ oc_initial (runw db ws) = oc_initial db /\ exists M', D F (runw db ws) (L + n) S M'.
Proof.
  induction n as [|n IH] using N.peano_ind; intros db L S M HB HF HD HL Hs.
  - cbn. split; [apply along_nil; unfold ok; rewrite HL; eauto|]. rewrite N.add_0_r. eauto.
  - rewrite <- N.add_1_r in *. rewrite seqN_cons. cbn [map concat]. rewrite <- (block_writes_same db db0 (L + 1)) by (apply Hs; lia).
    destruct (block_ok F db L S M) as (A1 & L1 & I1 & [M1 D1] & R1); [lia|lia|done|done|]. cbn zeta. rewrite runw_app. set (db1 := runw db (block_writes db (L + 1))) in *.
    destruct (IH db1 (L + 1) S M1) as (A2 & L2 & I2 & M2 & D2); [lia|lia|done|done| |].
    { intros b Hb. destruct (R1 b) as [Ra Rb]; [lia|]. destruct (Hs b) as [Ha Hb']; [lia|]. split; congruence. }
    cbn zeta in *. replace (L + (n + 1)) with (L + 1 + n) by lia. split; [by apply along_app|]. split; [done|]. split; [congruence|]. eauto.
Qed.

(** *** The initial indexing *)
Lemma D_mono F F' db L S M : F <= F' -> D F db L S M -> D F' db L S M.
Proof. intros HF []. split; try done; [lia|]. intros b Hb Hor. apply d_full0; [done|]. lia. Qed.
Lemma ok_mono F F' db : F <= F' -> ok F db -> ok F' db.
Proof. intros HF. unfold ok. destruct (oc_last db); [|done]. intros (S & M & H). exists S, M. by apply (D_mono F). Qed.

Lemma start_D F0 F db : F0 <= F -> 1 <= F -> F <= B -> ok F0 db -> oc_initial db = false -> (forall L, oc_last db = Some L -> F <= L + 1) ->
  exists S M, D F (exec_write cleans db (WLast (F - 1))) (F - 1) S M.
Proof.
  intros HF0 H1 HB Hok Hi Hg. unfold ok in Hok. destruct (oc_last db) as [L|] eqn:EL.
  - destruct Hok as (S & M & HD). exists S, M. apply (D_mono F0 F) in HD; [|done]. specialize (Hg L eq_refl). destruct HD. split; try done.
    + lia.
    + apply (agree_weaken db (F - 1) L); [lia|done].
  - destruct Hok as (_ & Ek & Ha & Hl). exists F, (F - 1). split; try done.
    + intros b Hb. exists 0%nat. by apply Hl.
    + intros m. unfold idx. cbn. rewrite Ek, lookup_empty. constructor.
    + lia.
    + intros _ b Hb. lia.
    + intros b Hb _. rewrite (read_logged _ b (bl b) 0); [done|]. by apply Hl.
    + intros m k _. unfold idx. cbn [exec_write up_last oc_keys oc_initial]. rewrite Ek, lookup_empty, Hi. cbn. split; [|done]. intros H. by apply elem_of_nil in H.
Qed.

Definition key_write (p : N * N) : Write := let '(k, m) := p in WKeys m [EvKeyAdded m k].
Lemma idx_add db m k m' k' : k' ∈ idx (exec_write cleans db (WKeys m [EvKeyAdded m k])) m' <-> k' ∈ idx db m' \/ (m' = m /\ k' = k).
Proof.
  rewrite idx_keys. destruct (decide (m' = m)) as [->|Hm]; [|intuition congruence]. cbn. destruct (decide (k ∈ idx db m)).
  - intuition congruence.
  - rewrite elem_of_app, elem_of_list_singleton. intuition congruence.
Qed.
Section initial.
Context (st : MsaState) (F at_ : N) (HF : 1 <= F) (Hat : F <= at_) (HB : at_ <= B) (Hst : lg_ok st) (Hlog : (ms_log st).*2 = cat bl at_).
Lemma controls_on db S M m k : D F db (F - 1) S M -> (forall b, F - 1 < b <= B -> touched (read db b) m k = false) -> controls st k m <-> on m k.
Proof.
  intros HD Hm. rewrite (Hst m k), Hlog. unfold on. rewrite (cat_untouched bl m k false at_ B); [done|lia|].
  intros b Hb. rewrite <- (Hm b) by lia. f_equal. symmetry. eapply d_full; [exact HD|lia|]. lia.
Qed.
Lemma D_add db S M k m : oc_initial db = false -> controls st k m -> D F db (F - 1) S M -> D F (exec_write cleans db (WKeys m [EvKeyAdded m k])) (F - 1) S M.
Proof.
  intros Hi Hc HD. split; try apply HD.
  - intros m'. rewrite idx_keys. destruct (decide _) as [->|]; [apply process_nodup|]; apply (d_nodup _ _ _ _ _ HD).
  - intros m' k' Hm. rewrite idx_add. cbn [exec_write up_keys oc_initial]. rewrite Hi. split; [|done]. intros [H|[-> ->]].
    + by apply (d_agree _ _ _ _ _ HD m' k' Hm).
    + by apply (controls_on db S M m k HD Hm).
Qed.
Lemma adds_ok S M l : forall db, oc_initial db = false -> oc_last db = Some (F - 1) -> (forall k m, (k, m) ∈ l -> controls st k m) -> D F db (F - 1) S M ->
  let ws := map key_write l in
  along (ok F) db ws /\ D F (runw db ws) (F - 1) S M /\ oc_initial (runw db ws) = false /\ oc_last (runw db ws) = Some (F - 1)
  /\ oc_events (runw db ws) = oc_events db /\ oc_counts (runw db ws) = oc_counts db
  /\ (forall k m, (k, m) ∈ l \/ k ∈ idx db m -> k ∈ idx (runw db ws) m).
Proof.
  induction l as [|[k m] l IH]; intros db Hi HL Hl HD.
  - cbn. split; [apply along_nil; unfold ok; rewrite HL; eauto|]. split; [done|]. split; [done|]. split; [done|]. split; [done|]. split; [done|]. intros k m [H|H]; [by apply elem_of_nil in H|done].
  - cbn [map key_write]. destruct (IH (exec_write cleans db (WKeys m [EvKeyAdded m k]))) as (A & D' & I' & L' & E1 & E2 & C).
    + done.
    + done.
    + intros k' m' H. apply Hl. by constructor.
    + apply D_add; [done| |done]. apply Hl. constructor.
    + cbn zeta. split; [apply along_cons; [unfold ok; rewrite HL; eauto|exact A]|]. split; [exact D'|]. split; [exact I'|]. split; [exact L'|]. split; [exact E1|]. split; [exact E2|].
      intros k' m' H. apply C. rewrite idx_add. destruct H as [H|H]; [|tauto]. apply elem_of_cons in H as [[= -> ->]|H]; tauto.
Qed.
Lemma initial_ok F0 db l : F0 <= F -> ok F0 db -> oc_initial db = false -> (forall L, oc_last db = Some L -> F <= L + 1) -> l <> Held ->
  let ws := initial_writes st F l in
  along (ok F) db ws /\ oc_last (runw db ws) = Some (F - 1) /\ (exists S M, D F (runw db ws) (F - 1) S M) /\ (l = Kept -> oc_initial (runw db ws) = true)
  /\ (forall b, same_log b (runw db ws) db).
Proof.
  intros HF0 Hok Hi Hg Hl. destruct (start_D F0 F db HF0 HF ltac:(lia) Hok Hi Hg) as (S & M & HD).
  assert (Hc : forall k m, (k, m) ∈ map_to_list (ms_keys st) -> controls st k m). { intros k m H. by apply elem_of_map_to_list in H. }
  cbn zeta. unfold initial_writes. set (db0 := exec_write cleans db (WLast (F - 1))) in *.
  assert (Ek : map (fun '(k, m) => WKeys m [EvKeyAdded m k]) (map_to_list (ms_keys st)) = map key_write (map_to_list (ms_keys st))) by (apply map_ext; by intros [? ?]).
  rewrite Ek.
  match goal with |- along _ _ (?w :: ?r) /\ _ => change (runw db (w :: r)) with (runw db0 r) end.
  assert (Hok0 : ok F db) by (by apply (ok_mono F0)).
  destruct l as [|n|]; [done| |].
  - rewrite <- map_take_. destruct (adds_ok S M (take (N.to_nat n) (map_to_list (ms_keys st))) db0) as (A & D' & I' & L' & E1 & E2 & _); [done|done| |done|].
    { intros k m H. apply Hc. apply elem_of_take in H as (i & H & _). by apply elem_of_list_lookup_2 in H. }
    cbn zeta in *. split; [by apply along_cons|]. split; [done|]. split; [eauto|]. split; [done|].
    intros b. split; [apply read_ext|]; by rewrite ?E1, ?E2.
  - destruct (adds_ok S M (map_to_list (ms_keys st)) db0) as (A & D' & I' & L' & E1 & E2 & C); [done|done|done|done|]. cbn zeta in *. rewrite runw_app.
    set (db1 := runw db0 (map key_write (map_to_list (ms_keys st)))) in *. cbn [runw fold_left].
    assert (D2 : D F (exec_write cleans db1 WInitial) (F - 1) S M).
    { split; try apply D'. intros m k Hm. split; [by apply (d_agree _ _ _ _ _ D' m k Hm)|]. intros _ Hon.
      apply (controls_on db1 S M m k D' Hm) in Hon. apply (C k m). left. by apply elem_of_map_to_list. }
    split; [|split; [done|split; [eauto|split; [done|]]]].
    + apply along_cons; [done|]. fold db0. apply along_app; [done|]. fold db1. apply along_cons; [unfold ok; rewrite L'; eauto|]. apply along_nil. unfold ok. cbn [exec_write up_initial oc_last]. rewrite L'. eauto.
    + intros b. split; [apply read_ext|]; cbn [exec_write up_initial oc_counts oc_events]; by rewrite ?E1, ?E2.
Qed.

(** *** A run *)
Lemma worker_ok F0 db r : F0 <= F -> ok F0 db -> wk_final r = F -> (oc_initial db = false -> forall L, oc_last db = Some L -> F <= L + 1) ->
  along (ok F) db (worker_writes st db r) /\
  (wk_initial r = Kept -> wk_apply r = true -> oc_initial (runw db (worker_writes st db r)) = true /\ oc_last (runw db (worker_writes st db r)) = Some F).
Proof.
  intros HF0 Hok Hf Hg. assert (Hok' : ok F db) by (by apply (ok_mono F0)). unfold worker_writes. rewrite Hf.
  assert (main : forall l, l <> Held ->
    let ws := if oc_initial db then (if wk_apply r then apply_writes db (default (F - 5) (oc_last db)) F else [])
              else initial_writes st F l ++ (if wk_apply r then apply_writes db (F - 1) F else []) in
    along (ok F) db ws /\ (l = Kept -> wk_apply r = true -> oc_initial (runw db ws) = true /\ oc_last (runw db ws) = Some F)).
  { intros l Hl. destruct (oc_initial db) eqn:Ei.
    - cbn zeta. unfold ok in Hok. destruct (oc_last db) as [L|] eqn:EL; [|destruct Hok; congruence]. destruct Hok as (S & M & HD). pose proof (d_S _ _ _ _ _ HD).
      apply (D_mono F0 F) in HD; [|done]. destruct (wk_apply r); [|by split; [apply along_nil|]]. cbn [default]. unfold id, apply_writes.
      destruct (apply_ok F db (F - L) db L S M) as (A & L' & I' & _); [lia|lia|done|done|by intros|]. cbn zeta in *. split; [done|]. intros _ _. split; [congruence|]. rewrite L'. f_equal. lia.
    - cbn zeta. destruct (initial_ok F0 db l HF0 Hok Ei (Hg eq_refl) Hl) as (A & L' & (S & M & D') & I' & R). cbn zeta in *.
      destruct (wk_apply r).
      + set (db1 := runw db (initial_writes st F l)) in *. unfold apply_writes.
        destruct (apply_ok F db (F - (F - 1)) db1 (F - 1) S M) as (A2 & L2 & I2 & _); [lia|lia|done|done|by intros|]. cbn zeta in *.
        rewrite runw_app. fold db1. split; [by apply along_app|]. intros E _. split; [rewrite I2; by apply I'|]. rewrite L2. f_equal. lia.
      + rewrite app_nil_r. split; [done|]. intros _ [=]. }
  destruct (wk_initial r) as [|n|].
  - split; [by apply along_nil|]. intros [=].
  - apply (main (Lost n)). done.
  - apply (main Kept). done.
Qed.
End initial.
End inv.

(** ** The node *)
Section node.
Context (cfg : MsaCfg) (cleans : bool).
Definition chain_ok (w : Node) (bl : N -> list KeyEvent) : Prop :=
  (0 < length (nd_chain w))%nat
  /\ (forall b, b <= best w -> exists st, state_at w b = Some st /\ lg_ok st /\ (ms_log st).*2 = cat bl b)
  /\ (forall b e, (b, e) ∈ ms_log (best_state w) <-> 1 <= b <= best w /\ e ∈ bl b).
Definition node_ok (w : Node) (F : N) : Prop := exists bl F0, chain_ok w bl /\ F0 <= F /\ F0 <= best w /\ ok cleans bl (best w) F0 (nd_db w).

Lemma start_ok : node_ok node_start 0.
Proof.
  exists (fun _ => []), 0. split; [|split; [done|split; [done|]]].
  - split; [cbn; lia|]. split.
    + intros b Hb. cbn in Hb. assert (b = 0) as -> by (unfold best, len in Hb; cbn in Hb; lia). exists msa_genesis. split; [done|]. split; [apply lg_genesis|done].
    + intros b e. cbn. split; [intros H; by apply elem_of_nil in H|]. intros [H _]. unfold best, len in H. cbn in H. lia.
  - unfold ok. cbn. split; [done|]. split; [done|]. split; [intros; by rewrite lookup_empty|]. intros b Hb. unfold best, len in Hb. cbn in Hb. lia.
Qed.

Lemma best_len w : (0 < length (nd_chain w))%nat -> length (nd_chain w) = S (N.to_nat (best w)).
Proof. unfold best, len. lia. Qed.

Lemma import_ok w F txs : len txs <= u16_max -> Forall deletes_on_top txs -> node_ok w F -> node_ok (node_step cfg cleans w (Import (best w) txs)) F.
Proof.
  intros Hn Ht (bl & F0 & (C0 & C1 & C2) & HF & HB & Hok).
  destruct (C1 (best w)) as (st & Est & Hst & Hcat); [lia|]. cbn [node_step]. rewrite Est.
  pose proof (exec_block_inv cfg (best w + 1) st (nd_db w) txs Ht Hn Hst) as Hinv. unfold exec_block.
  destruct (fold_left _ txs _) as [st' [c db']]. destruct Hinv as (Hst' & new & E1 & -> & Hlen & E2 & E3 & E4 & E5 & E6 & E7).
  pose proof (best_len w C0) as Hl. set (B := best w) in *.
  set (w' := {| nd_chain := _; nd_db := db' |}).
  assert (Etake : take (N.to_nat (B + 1)) (nd_chain w) = nd_chain w) by (apply take_ge; lia).
  assert (EB : best w' = B + 1). { unfold best, len, w'. cbn [nd_chain]. rewrite Etake, app_length. cbn [length]. lia. }
  assert (Ebs : best_state w = st) by (unfold best_state; fold B; by rewrite Est).
  assert (Hat' : forall b, b <= B -> state_at w' b = state_at w b).
  { intros b Hb. unfold state_at, w'. cbn [nd_chain]. rewrite Etake. apply lookup_app_l. lia. }
  assert (Hat'' : state_at w' (B + 1) = Some st').
  { unfold state_at, w'. cbn [nd_chain]. rewrite Etake, lookup_app_r by lia. by replace (N.to_nat (B + 1) - length (nd_chain w))%nat with 0%nat by lia. }
  set (bl' := fun b => if b =? B + 1 then new else bl b).
  assert (Eold : forall b, b <= B -> bl' b = bl b). { intros b Hb. unfold bl'. by rewrite (proj2 (N.eqb_neq _ _)) by lia. }
  assert (Enew : bl' (B + 1) = new). { unfold bl'. by rewrite N.eqb_refl. }
  assert (Ecat : forall b, b <= B -> cat bl' b = cat bl b). { intros b Hb. apply cat_ext. intros b' Hb'. apply Eold. lia. }
  exists bl', F0. split; [|split; [done|split; [rewrite EB; lia|]]].
  - split; [unfold w'; cbn [nd_chain]; rewrite app_length; cbn; lia|]. split.
    + intros b Hb. rewrite EB in Hb. destruct (decide (b = B + 1)) as [->|Hn'].
      * exists st'. split; [done|]. split; [done|]. rewrite E1, fmap_app, Hcat, cat_S, Enew, Ecat by lia. f_equal. rewrite <- list_fmap_compose. apply list_fmap_id.
      * destruct (C1 b) as (sb & Hb1 & Hb2 & Hb3); [lia|]. exists sb. rewrite Hat', Ecat by lia. done.
    + intros b e. assert (best_state w' = st') as -> by (unfold best_state; by rewrite EB, Hat''). rewrite EB, E1, elem_of_app, <- Ebs, C2. fold B.
      rewrite elem_of_list_fmap. split.
      * intros [[Hb He]|(e' & [= -> ->] & He)]; [split; [lia|]; by rewrite Eold by lia|]. split; [lia|]. by rewrite Enew.
      * intros [Hb He]. destruct (decide (b = B + 1)) as [->|Hn']; [right; rewrite Enew in He; eauto|]. left. rewrite Eold in He by lia. split; [lia|done].
  - rewrite EB. cbn [nd_db w']. 
    assert (Habove : (forall b, B < b -> oc_counts (nd_db w) !! b = None) -> forall b, B + 1 < b -> oc_counts db' !! b = None).
    { intros H b Hb. rewrite E2. destruct new; [|rewrite lookup_insert_ne by lia]; apply H; lia. }
    assert (Hcount : forall b, b <= B -> oc_counts db' !! b = oc_counts (nd_db w) !! b).
    { intros b Hb. rewrite E2. destruct new; [done|]. apply lookup_insert_ne. lia. }
    assert (Hev : forall b i, b <= B -> oc_events db' !! (b, i) = oc_events (nd_db w) !! (b, i)). { intros b i Hb. apply E4. lia. }
    assert (Hread : forall b, b <= B -> read_offchain_events db' b = read_offchain_events (nd_db w) b).
    { intros b Hb. apply read_ext; [by apply Hcount|]. intros i. by apply Hev. }
    assert (Hlogged : forall b c, b <= B -> logged (nd_db w) b (bl b) c -> logged db' b (bl' b) c).
    { intros b c Hb H. rewrite Eold by done. eapply logged_ext; [| |exact H]; [symmetry; by apply Hcount|]. intros i. symmetry. by apply Hev. }
    assert (Hlognew : (forall b, B < b -> oc_counts (nd_db w) !! b = None) -> logged db' (B + 1) (bl' (B + 1)) 0).
    { intros H. rewrite Enew. split; [lia|]. destruct (decide (new = [])) as [En|En]; [right; rewrite E2, En; split; [apply H; lia|done]|]. left.
      split; [rewrite E2; destruct new; [done|]; by rewrite lookup_insert|]. intros i Hi. cbn [Nat.ltb Nat.leb]. destruct (new !! i) as [e'|] eqn:Ei.
      - rewrite (N.add_comm 1). by apply E3.
      - apply lookup_ge_None in Ei. lia. }
    unfold ok in *. rewrite E7. destruct (oc_last (nd_db w)) as [L|].
    + destruct Hok as (S & M & []). exists S, M.
      assert (Hfullnew : read_offchain_events db' (B + 1) = new). { rewrite (read_logged db' (B + 1) (bl' (B + 1)) 0), Enew; [done|]. by apply Hlognew. }
      split.
      * by apply Habove.
      * intros b Hb. destruct (decide (b = B + 1)) as [->|Hn']; [exists 0%nat; by apply Hlognew|]. destruct (d_log0 b) as [c Hc]; [lia|]. exists c. apply Hlogged; [lia|done].
      * intros m. unfold idx. rewrite E5. apply d_nodup0.
      * done.
      * intros Hc b Hb. rewrite Hread by lia. by apply d_clean0.
      * intros b Hb Hor. destruct (decide (b = B + 1)) as [->|Hn']; [by rewrite Enew|]. rewrite Hread, Eold by lia. apply d_full0; [lia|done].
      * intros m k Hm. unfold idx. rewrite E5, E6. assert (Eon : on bl' (B + 1) m k <-> on bl B m k).
        { unfold on. rewrite cat_S, after_app, Enew, after_untouched by (rewrite <- Hfullnew; apply Hm; lia). by rewrite Ecat by lia. }
        rewrite Eon. apply d_agree0. intros b Hb. rewrite <- Hread by lia. apply Hm. lia.
    + destruct Hok as (H1 & H2 & H3 & H4). split; [congruence|]. split; [congruence|]. split; [by apply Habove|].
      intros b Hb. destruct (decide (b = B + 1)) as [->|Hn']; [by apply Hlognew|]. apply Hlogged; [lia|]. apply H4. lia.
Qed.

Lemma state_at_le w b st : state_at w b = Some st -> b <= best w.
Proof. intros H. apply lookup_lt_Some in H. unfold best, len. lia. Qed.
Lemma worker_step_ok w F r : F <= wk_final r -> node_ok w F -> (oc_initial (nd_db w) = false -> forall L, oc_last (nd_db w) = Some L -> wk_final r <= L + 1) ->
  node_ok (node_step cfg cleans w (Worker r)) (wk_final r) /\
  (complete w r -> oc_initial (nd_db (node_step cfg cleans w (Worker r))) = true /\ oc_last (nd_db (node_step cfg cleans w (Worker r))) = Some (wk_final r)).
Proof.
  intros HF (bl & F0 & HC & HF0 & HB & Hok) Hg. cbn [node_step]. destruct (state_at w (wk_at r)) as [st|] eqn:Est.
  - destruct (final_found r) eqn:Ef.
    + pose proof (state_at_le _ _ _ Est) as Hat. unfold final_found in Ef. apply andb_true_iff in Ef as [Ef1 Ef2]. apply N.ltb_lt in Ef1. apply N.leb_le in Ef2.
      destruct HC as (C0 & C1 & C2). destruct (C1 (wk_at r) Hat) as (st0 & E0 & Hst & Hlog). rewrite Est in E0. injection E0 as <-.
      destruct (worker_ok cleans bl (best w) st (wk_final r) (wk_at r) ltac:(lia) Ef2 Hat Hst Hlog F0 (nd_db w) r ltac:(lia) Hok eq_refl Hg) as [A Hc].
      split.
      * exists bl, (wk_final r). split; [done|]. split; [lia|]. split; [change (wk_final r <= best w); lia|].
        change (best {| nd_chain := nd_chain w; nd_db := run_worker cleans st (nd_db w) r |}) with (best w). cbn [nd_db]. unfold run_worker.
        destruct (wk_stop r) as [n|]; [apply A|]. specialize (A (length (worker_writes st (nd_db w) r))). by rewrite take_ge in A by lia.
      * intros (_ & _ & Hk & Ha & Hs). cbn [nd_db]. unfold run_worker. rewrite Hs. by apply Hc.
    + split; [|intros (_ & Hf & _); congruence]. exists bl, F0. split; [done|]. split; [lia|done].
  - split; [exists bl, F0; split; [done|]; split; [lia|done]|]. intros (Hat & _). destruct HC as (_ & C1 & _). destruct (C1 (wk_at r)) as (st & E & _); [lia|]. congruence.
Qed.

Lemma run_ok h : forall w F, follows cfg cleans w F h -> no_gap cfg cleans w h -> node_ok w F -> exists F', node_ok (node_run cfg cleans w h) F'.
Proof.
  induction h as [|x h IH]; intros w F Hf Hg Hok; [by exists F|]. cbn [follows no_gap] in Hf, Hg. destruct Hg as [Hg1 Hg2].
  change (node_run cfg cleans w (x :: h)) with (node_run cfg cleans (node_step cfg cleans w x) h). destruct x as [p txs|r].
  - destruct Hf as (-> & H1 & H2 & H3). eapply IH; [exact H3|done|]. by apply import_ok.
  - destruct Hf as [H1 H2]. eapply IH; [exact H2|done|]. by apply (worker_step_ok w F r).
Qed.

Lemma ok_listed w F m k : node_ok w F -> oc_initial (nd_db w) = true -> (forall b, changed_in (best_state w) m k b -> forall L, oc_last (nd_db w) = Some L -> b <= L) ->
  (listed w k m <-> controls (best_state w) k m).
Proof.
  intros (bl & F0 & (C0 & C1 & C2) & _ & _ & Hok) Hi Hch. unfold ok in Hok. destruct (oc_last (nd_db w)) as [L|]; [|destruct Hok; congruence].
  destruct Hok as (S & M & HD). destruct (C1 (best w)) as (st & Est & Hst & Hlog); [lia|].
  assert (Ebs : best_state w = st) by (unfold best_state; by rewrite Est). 
  assert (Hun : forall b, L < b <= best w -> touched (read_offchain_events (nd_db w) b) m k = false).
  { intros b Hb. destruct (touched _ m k) eqn:Et; [|done]. exfalso. apply touched_spec in Et as (e & He & Ha).
    destruct (d_log _ _ _ _ _ _ _ _ HD b) as [c Hc]; [lia|]. rewrite (read_logged _ _ _ _ Hc) in He. apply elem_of_list_lookup in He as [i He]. rewrite lookup_drop in He.
    apply elem_of_list_lookup_2 in He. assert (b <= L); [|lia]. apply (Hch b); [|done]. exists e. split; [|done]. apply C2. split; [lia|done]. }
  destruct (d_agree _ _ _ _ _ _ _ _ HD m k Hun) as [A1 A2]. rewrite Ebs, (Hst m k), Hlog. fold (on bl (best w) m k).
  unfold listed, get_keys_by_msa_id, idx in *. split.
  - intros (l & El & Hk). apply A1. by rewrite El.
  - intros Hon. specialize (A2 Hi Hon). destruct (oc_keys (nd_db w) !! m) as [l|]; [eauto|]. by apply elem_of_nil in A2.
Qed.
Lemma ok_nodup w F m l : node_ok w F -> get_keys_by_msa_id w m = Some l -> NoDup l.
Proof.
  intros (bl & F0 & _ & _ & _ & Hok) El. unfold ok, get_keys_by_msa_id in *. destruct (oc_last (nd_db w)) as [L|].
  - destruct Hok as (S & M & HD). pose proof (d_nodup _ _ _ _ _ _ _ _ HD m) as H. unfold idx in H. by rewrite El in H.
  - destruct Hok as (_ & E & _). by rewrite E, lookup_empty in El.
Qed.

(** ** The lemmas behind the properties *)
Lemma follows_app h1 h2 : forall w F, follows cfg cleans w F (h1 ++ h2) -> exists F', F <= F' /\ follows cfg cleans w F h1 /\ follows cfg cleans (node_run cfg cleans w h1) F' h2 /\ (node_ok w F -> no_gap cfg cleans w h1 -> node_ok (node_run cfg cleans w h1) F').
Proof.
  induction h1 as [|x h IH]; intros w F Hf; [by exists F|]. cbn [app follows no_gap] in Hf |- *. destruct x as [p txs|r].
  - destruct Hf as (-> & H1 & H2 & H3). destruct (IH _ _ H3) as (F' & A1 & A2 & A3 & A4). exists F'. split; [done|]. split; [done|]. split; [done|].
    intros Hok [_ Hg]. apply A4; [|done]. by apply import_ok.
  - destruct Hf as [H1 H2]. destruct (IH _ _ H2) as (F' & A1 & A2 & A3 & A4). exists F'. split; [lia|]. split; [done|]. split; [done|].
    intros Hok [Hg1 Hg]. apply A4; [|done]. by apply (worker_step_ok w F r).
Qed.
Lemma no_gap_app h1 h2 : forall w, no_gap cfg cleans w (h1 ++ h2) -> no_gap cfg cleans w h1 /\ no_gap cfg cleans (node_run cfg cleans w h1) h2.
Proof. induction h1 as [|x h IH]; intros w Hg; [done|]. cbn [app no_gap] in *. destruct Hg as [H1 H2]. destruct (IH _ H2) as [A1 A2]. done. Qed.

Lemma converge_lemma h r : follows cfg cleans node_start 0 (h ++ [Worker r]) -> no_gap cfg cleans node_start (h ++ [Worker r]) ->
  complete (node_run cfg cleans node_start h) r ->
  let w := node_run cfg cleans node_start (h ++ [Worker r]) in
  forall m, (forall k, (forall b, wk_final r < b -> ~ changed_in (best_state w) m k b) -> listed w k m <-> controls (best_state w) k m)
            /\ forall l, get_keys_by_msa_id w m = Some l -> NoDup l.
Proof.
  intros Hf Hg Hc w m. destruct (follows_app h [Worker r] _ _ Hf) as (F' & HF & _ & Hf2 & Hok). destruct (no_gap_app h [Worker r] _ Hg) as [Hg1 Hg2].
  specialize (Hok start_ok Hg1). cbn [follows no_gap] in Hf2, Hg2. destruct Hf2 as [Hf2 _]. destruct Hg2 as [Hg2 _].
  destruct (worker_step_ok _ F' r Hf2 Hok Hg2) as [Hok' Hdone]. destruct (Hdone Hc) as [Hi HL].
  assert (Ew : w = node_step cfg cleans (node_run cfg cleans node_start h) (Worker r)). { unfold w, node_run. by rewrite fold_left_app. }
  rewrite <- Ew in *. split.
  - intros k Hk. apply (ok_listed w (wk_final r)); [done|done|]. intros b Hb L EL. rewrite HL in EL. injection EL as <-.
    destruct (decide (b <= wk_final r)); [done|]. exfalso. apply (Hk b); [lia|done].
  - intros l. by apply (ok_nodup w (wk_final r)).
Qed.

(** Without a disturbance the first run completes the initial indexing. *)
Lemma undisturbed_step w r : undisturbed (Worker r) -> oc_last (nd_db w) = None -> oc_initial (nd_db w) = false ->
  let w' := node_step cfg cleans w (Worker r) in
  oc_initial (nd_db w') = true \/ nd_db w' = nd_db w.
Proof.
  intros (Hs & Hl & Ha) EL Ei. cbn [node_step]. destruct (state_at w (wk_at r)) as [st|]; [|by right]. destruct (final_found r) eqn:Ef; [|by right]. cbn [nd_db].
  unfold run_worker. rewrite Hs. unfold worker_writes. rewrite Ei, Ha. destruct (wk_initial r) as [|n|] eqn:E; [by right|by destruct (Hl n)|]. left.
  rewrite fold_left_app. unfold initial_writes. 
  assert (K : forall ws d, oc_initial d = true -> oc_initial (fold_left (exec_write cleans) ws d) = true).
  { induction ws as [|x ws IH]; intros d Hd; [done|]. cbn [fold_left]. apply IH. destruct x; cbn [exec_write]; try done; by destruct cleans. }
  apply K. cbn [fold_left]. rewrite fold_left_app. done.
Qed.
Lemma initial_kept w x : oc_initial (nd_db w) = true -> oc_initial (nd_db (node_step cfg cleans w x)) = true.
Proof.
  intros Hi. destruct x as [p txs|r]; cbn [node_step].
  - destruct (state_at w p) as [st|]; [|done]. unfold exec_block.
    assert (K : forall txs acc, oc_initial acc.2.2 = true -> oc_initial (fold_left (exec_tx cfg (p + 1)) txs acc).2.2 = true).
    { induction txs0 as [|x txs0 IH]; intros acc H; [done|]. cbn [fold_left]. apply IH. destruct acc as [s0 [c db]]. unfold exec_tx. cbn [snd] in *.
      generalize (drop (length (ms_log s0)) (ms_log (msa_step cfg s0 (in_block (p + 1) x)))).*2. intros evs. revert c db H.
      induction evs as [|e evs IHe]; intros c db H; [done|]. cbn [fold_left offchain_index_event]. by apply IHe. }
    specialize (K txs (st, (0, nd_db w)) Hi). by destruct (fold_left _ txs _) as [s' [c db']].
  - destruct (state_at w (wk_at r)) as [st|]; [|done]. destruct (final_found r); [|done]. cbn [nd_db]. unfold run_worker.
    generalize (match wk_stop r with Some n => take (N.to_nat n) (worker_writes st (nd_db w) r) | None => worker_writes st (nd_db w) r end). intros ws.
    revert Hi. generalize (nd_db w). induction ws as [|x ws IH]; intros d Hd; [done|]. cbn [fold_left]. apply IH. destruct x; cbn [exec_write]; try done; by destruct cleans.
Qed.
Lemma import_fields w p txs : let w' := node_step cfg cleans w (Import p txs) in oc_last (nd_db w') = oc_last (nd_db w) /\ oc_initial (nd_db w') = oc_initial (nd_db w).
Proof.
  cbn [node_step]. destruct (state_at w p) as [st|]; [|done]. unfold exec_block.
  assert (K : forall txs acc, let a := fold_left (exec_tx cfg (p + 1)) txs acc in oc_last a.2.2 = oc_last acc.2.2 /\ oc_initial a.2.2 = oc_initial acc.2.2).
  { induction txs0 as [|x txs0 IH]; intros acc; [done|]. cbn [fold_left]. destruct (IH (exec_tx cfg (p + 1) acc x)) as [-> ->].
    destruct acc as [s0 [c db]]. unfold exec_tx. cbn [snd].
    generalize (drop (length (ms_log s0)) (ms_log (msa_step cfg s0 (in_block (p + 1) x)))).*2. intros evs. revert c db.
    induction evs as [|e evs IHe]; intros c db; [done|]. cbn [fold_left offchain_index_event]. destruct (IHe (sat_add u16_max c 1) (up_counts (up_events db (<[(p + 1, sat_add u16_max c 1):=e]> (oc_events db))) (<[p + 1:=sat_add u16_max c 1]> (oc_counts db)))) as [-> ->]. done. }
  specialize (K txs (st, (0, nd_db w))). by destruct (fold_left _ txs _) as [s' [c db']].
Qed.
Lemma undisturbed_no_gap h : forall w, Forall undisturbed h -> oc_initial (nd_db w) = true \/ oc_initial (nd_db w) = false /\ oc_last (nd_db w) = None -> no_gap cfg cleans w h.
Proof.
  induction h as [|x h IH]; intros w Hu Hw; [done|]. inversion Hu as [|? ? Hx Hh]; subst. cbn [no_gap]. split.
  - destruct x as [|r]; [done|]. intros Hi L HL. destruct Hw as [Hw|[_ Hw]]; congruence.
  - apply IH; [done|]. destruct Hw as [Hi|[Hi HL]]; [left; by apply initial_kept|]. destruct x as [p txs|r].
    + right. destruct (import_fields w p txs) as [-> ->]. done.
    + destruct (undisturbed_step w r Hx HL Hi) as [E|E]; [by left|]. right. by rewrite E.
Qed.

Lemma exact_lemma h r : follows cfg cleans node_start 0 (h ++ [Worker r]) -> Forall undisturbed h -> complete (node_run cfg cleans node_start h) r ->
  let w := node_run cfg cleans node_start (h ++ [Worker r]) in
  forall m, (forall k, (forall b, wk_final r < b -> ~ changed_in (best_state w) m k b) -> listed w k m <-> controls (best_state w) k m)
            /\ forall l, get_keys_by_msa_id w m = Some l -> NoDup l.
Proof.
  intros Hf Hu Hc. apply converge_lemma; [done| |done]. apply undisturbed_no_gap; [|by right]. apply Forall_app. split; [done|]. constructor; [|done].
  destruct Hc as (_ & _ & Hk & Ha & Hs). split; [done|]. split; [|done]. intros n. by rewrite Hk.
Qed.

Lemma ok_log w F b e : node_ok w F -> (b, e) ∈ ms_log (best_state w) -> b <= best w.
Proof. intros (bl & F0 & (_ & _ & C2) & _) H. by apply C2 in H as [[_ H] _]. Qed.
Lemma exact_final_lemma h r : follows cfg cleans node_start 0 (h ++ [Worker r]) -> Forall undisturbed h -> complete (node_run cfg cleans node_start h) r ->
  let w := node_run cfg cleans node_start (h ++ [Worker r]) in
  wk_final r = best w -> forall m k, listed w k m <-> controls (best_state w) k m.
Proof.
  intros Hf Hu Hc w Eb m k. destruct (exact_lemma h r Hf Hu Hc m) as [H _]. fold w in H. apply H. intros b Hb (e & He & _).
  assert (Hg : no_gap cfg cleans node_start (h ++ [Worker r])).
  { apply undisturbed_no_gap; [|by right]. apply Forall_app. split; [done|]. constructor; [|done].
    destruct Hc as (_ & _ & Hk & Ha & Hs). split; [done|]. split; [|done]. intros n. by rewrite Hk. }
  destruct (run_ok _ _ _ Hf Hg start_ok) as [F' Hok]. fold w in Hok. pose proof (ok_log _ _ _ _ Hok He). lia.
Qed.

Lemma initial_no_gap h : forall w, oc_initial (nd_db w) = true -> no_gap cfg cleans w h.
Proof.
  induction h as [|x h IH]; intros w Hi; [done|]. cbn [no_gap]. split; [|apply IH; by apply initial_kept]. destruct x; [done|]. congruence.
Qed.
Lemma after_initial_gen h1 h2 : forall w, no_gap cfg cleans w h1 -> oc_initial (nd_db (node_run cfg cleans w h1)) = true -> no_gap cfg cleans w (h1 ++ h2).
Proof.
  induction h1 as [|x h IH]; intros w Hg Hi; [by apply initial_no_gap|]. cbn [app no_gap] in *. destruct Hg as [H1 H2]. split; [done|]. by apply IH.
Qed.
Lemma after_initial_lemma h1 h2 : no_gap cfg cleans node_start h1 -> oc_initial (nd_db (node_run cfg cleans node_start h1)) = true -> no_gap cfg cleans node_start (h1 ++ h2).
Proof. apply after_initial_gen. Qed.

Lemma never_stale_lemma h : follows cfg cleans node_start 0 h -> no_gap cfg cleans node_start h ->
  let w := node_run cfg cleans node_start h in
  forall m k, listed w k m -> (forall b last, oc_last (nd_db w) = Some last -> last < b -> ~ changed_in (best_state w) m k b) -> controls (best_state w) k m.
Proof.
  intros Hf Hg w m k (l & El & Hk) Hch. destruct (run_ok _ _ _ Hf Hg start_ok) as [F' (bl & F0 & (C0 & C1 & C2) & _ & _ & Hok)]. fold w in C0, C1, C2, Hok.
  unfold get_keys_by_msa_id in El. unfold ok in Hok. destruct (oc_last (nd_db w)) as [L|].
  2:{ destruct Hok as (_ & E & _). by rewrite E, lookup_empty in El. }
  destruct Hok as (S & M & HD). destruct (C1 (best w)) as (st & Est & Hst & Hlog); [lia|].
  assert (Ebs : best_state w = st) by (unfold best_state; by rewrite Est).
  rewrite Ebs. apply (Hst m k). rewrite Hlog. apply (d_agree _ _ _ _ _ _ _ _ HD m k); [|unfold idx; by rewrite El].
  intros b Hb. destruct (touched _ m k) eqn:Et; [|done]. exfalso. apply touched_spec in Et as (e & He & Ha).
  destruct (d_log _ _ _ _ _ _ _ _ HD b) as [c Hc]; [lia|]. rewrite (read_logged _ _ _ _ Hc) in He. apply elem_of_list_lookup in He as [i He]. rewrite lookup_drop in He.
  apply elem_of_list_lookup_2 in He. apply (Hch b L); [done|lia|]. exists e. split; [|done]. apply C2. split; [lia|done].
Qed.
End node.
