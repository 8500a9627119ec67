(** Further proofs about stateful storage: histories, replay, listings, events. *)
From Verif Require Import Prelude Scale ScaleDec CommonTypes SigModel MsaModel MsaSpec StModel StSpec StProofs.

Section st.
Variable cfg : StCfg.

Lemma rq_deleting_removes rq : rq_deleting rq = false <-> ~ removes (rq_change rq).
Proof.
  unfold rq_deleting, removes. destruct (rq_change rq) as [l| |]; [|tauto|].
  - rewrite <- not_true_iff_false, existsb_exists. split; intros H Hx; apply H.
    + destruct Hx as [i Hi]. exists (Delete i). split; [by apply elem_of_list_In|done].
    + destruct Hx as ([|i] & Hi & Hd); [done|]. exists i. by apply elem_of_list_In.
  - split; [done|]. intros H. by destruct H.
Qed.

Lemma schema_allows_iff env rq b P : (b = true <-> P) -> schema_allows env rq b <-> schema_permits env rq P.
Proof.
  intros Hb. unfold schema_allows, schema_permits. split; intros (i & ? & ? & Hs & Ha); exists i; (split; [done|]); (split; [done|]);
    (split; [by intros ?; apply Hb, Hs|]); intros Hx; apply rq_deleting_removes; auto.
Qed.

Lemma allowed_permitted env o c rq : allowed cfg env o c rq <-> permitted cfg env o c rq.
Proof.
  unfold allowed, permitted. destruct (signature_of c).
  - by rewrite (schema_allows_iff _ _ true True).
  - split.
    + intros (who & caller & -> & Hc & Hg & Hs). split.
      * destruct Hg as [->|Hg]; [left; by exists who|right; by exists who, caller].
      * eapply schema_allows_iff; [|exact Hs]. rewrite N.eqb_eq. split; [intros ->; by exists who|].
        intros (who' & [= <-] & Hc'). unfold controls in *. congruence.
    + intros (Hw & Hs).
      assert (exists who caller, o = Signed who /\ controls (v_msa env) who caller /\
        (caller = loc_msa (rq_loc rq) \/ schema_ok (v_env env) (v_msa env) caller (loc_msa (rq_loc rq)) (loc_schema (rq_loc rq))))
        as (who & caller & -> & Hc & Hg).
      { destruct Hw as [(who & -> & Hc)|(who & p & -> & Hc & Hg)]; eauto 10. }
      exists who, caller. repeat (split; [done|]). eapply schema_allows_iff; [|exact Hs].
      rewrite N.eqb_eq. split; [intros ->; by exists who|].
      intros (who' & [= <-] & Hc'). unfold controls in *. congruence.
Qed.

Section ok.
Hypothesis Hsz : sizes_ok cfg.
Hypothesis Hha : hashes_ok cfg.

(** ** One call *)
Lemma call_effect env st o c st' :
  st_inv cfg st -> env_ok env -> st_dispatch cfg env st o c = Ok st' ->
  exists rq cur new, request env c = Some rq /\ loc_ok (rq_loc rq) /\ page_id_ok cfg (rq_loc rq) /\ permitted cfg env o c rq /\
    read cfg st (rq_loc rq) = Ok cur /\ expects cfg cur rq /\ becomes cfg cur (rq_change rq) new /\
    read cfg st' (rq_loc rq) = Ok new /\
    (forall l', loc_ok l' -> l' <> rq_loc rq -> read cfg st' l' = read cfg st l').
Proof.
  intros I He H. apply dispatch_reads in H as (rq & cur & new & ? & ? & ? & ? & ? & ? & ? & ? & ?); [|done..].
  exists rq, cur, new. rewrite <- allowed_permitted. repeat (split; [done|]). done.
Qed.

Lemma call_ok_iff env st o c :
  st_inv cfg st -> env_ok env ->
  is_ok (st_dispatch cfg env st o c) = true <->
  call_ok cfg c = true /\ exists rq cur new, request env c = Some rq /\ page_id_ok cfg (rq_loc rq) /\ permitted cfg env o c rq /\
    read cfg st (rq_loc rq) = Ok cur /\ expects cfg cur rq /\ becomes cfg cur (rq_change rq) new.
Proof.
  intros I He. rewrite dispatch_ok_iff by done. split; intros (Hc & rq & cur & new & ? & ? & Ha & ? & ? & ?);
    (split; [done|]); exists rq, cur, new; (split; [done|]); (split; [done|]); (split; [by apply allowed_permitted|]); done.
Qed.

(** A step at a place: nothing changes, or the step is a successful call there. *)
Lemma step_at st x l :
  st_inv cfg st -> env_ok (x_env x) -> loc_ok l ->
  read cfg (st_step cfg st x) l = read cfg st l \/
  exists rq cur new, request (x_env x) (x_call x) = Some rq /\ rq_loc rq = l /\ permitted cfg (x_env x) (x_origin x) (x_call x) rq /\
    read cfg st l = Ok cur /\ expects cfg cur rq /\ becomes cfg cur (rq_change rq) new /\ read cfg (st_step cfg st x) l = Ok new /\
    is_ok (st_dispatch cfg (x_env x) st (x_origin x) (x_call x)) = true.
Proof.
  intros I He Hl. unfold st_step. destruct (st_dispatch _ _ _ _ _) as [st'|] eqn:E; [|by left].
  apply call_effect in E as (rq & cur & new & Hrq & Hlr & Hp & Ha & Hr & Hm & Hb & Hr' & Ho); [|done..].
  destruct (decide (l = rq_loc rq)) as [->|Hne]; [right|left; by apply Ho].
  exists rq, cur, new. done.
Qed.

Lemma step_inv st x : st_inv cfg st -> env_ok (x_env x) -> st_inv cfg (st_step cfg st x).
Proof. intros I He. unfold st_step. destruct (st_dispatch _ _ _ _ _) eqn:E; [|done]. by eapply dispatch_inv. Qed.

Lemma run_app st h h' : st_run cfg st (h ++ h') = st_run cfg (st_run cfg st h) h'.
Proof. apply fold_left_app. Qed.

(** ** Isolation over histories *)
Lemma untouched h : forall st l,
  st_inv cfg st -> envs_ok h -> loc_ok l ->
  Forall (fun x => forall rq, request (x_env x) (x_call x) = Some rq -> rq_loc rq <> l) h ->
  read cfg (st_run cfg st h) l = read cfg st l.
Proof.
  induction h as [|x h IH]; intros st l I He Hl Hn; [done|]. inversion He; subst. inversion Hn as [|? ? Hx Hn']; subst.
  cbn. fold (st_run cfg (st_step cfg st x) h). rewrite IH; [|by apply step_inv|done..].
  destruct (step_at st x l) as [?|(rq & cur & new & Hrq & Hloc & _)]; [done..| |]; [done|]. by destruct (Hx _ Hrq).
Qed.

(** ** Append-only *)
Lemma numbered_kept_all items : forall k, map snd (filter (fun x => x.1 ∉ @nil N) (numbered k items)) = items.
Proof.
  induction items as [|it items IH]; intros k; [done|]. cbn [numbered]. rewrite filter_cons, decide_True by apply not_elem_of_nil.
  cbn [map snd]. by rewrite IH.
Qed.

Lemma kept_nil items : kept items [] = items.
Proof. apply numbered_kept_all. Qed.

Lemma deleted_nil l : ~ removes (ChItems l) -> deleted l = [].
Proof.
  intros H. destruct (deleted l) as [|i ds] eqn:E; [done|]. destruct H.
  assert (Hi : i ∈ deleted l) by (rewrite E; left). unfold deleted in Hi. apply elem_of_list_omap in Hi as ([|j] & Hj & [= ->]).
  by exists i.
Qed.

Lemma append_items h : forall st m s cur items,
  st_inv cfg st -> envs_ok h -> loc_ok (ItemLoc m s) -> append_only_in s h ->
  read cfg st (ItemLoc m s) = Ok cur -> items_of cur items ->
  exists cur' more, read cfg (st_run cfg st h) (ItemLoc m s) = Ok cur' /\ items_of cur' (items ++ more).
Proof.
  induction h as [|x h IH]; intros st m s cur items I He Hl Ha Hr Hi.
  { exists cur, []. by rewrite app_nil_r. }
  inversion He; subst. inversion Ha as [|? ? (i & Hs & Happ) Ha']; subst.
  cbn. fold (st_run cfg (st_step cfg st x) h).
  destruct (step_at st x (ItemLoc m s)) as [Hsame|(rq & cur0 & new & Hrq & Hloc & Hp & Hr0 & Hm & Hb & Hr' & _)]; [done..| |].
  - eapply IH; try done; [by apply step_inv|]. by rewrite Hsame.
  - assert (cur0 = cur) as -> by congruence.
    assert (Hnr : ~ removes (rq_change rq)).
    { unfold permitted in Hp. destruct (signature_of _).
      - destruct Hp as (_ & _ & i' & Hi' & _ & _ & Hd). rewrite Hloc in Hi'. cbn in Hi'. assert (i' = i) as -> by congruence. by apply Hd.
      - destruct Hp as (_ & i' & Hi' & _ & _ & Hd). rewrite Hloc in Hi'. cbn in Hi'. assert (i' = i) as -> by congruence. by apply Hd. }
    remember (rq_change rq) as ch eqn:Hch. destruct Hb as [d| |l items0 new Hi0 Hnd Hrange Hnew Hsize].
    + exfalso. destruct rq as [loc t ch]; cbn in *. clear -Hrq Hloc Hch. subst loc ch.
      destruct (x_call x); cbn in Hrq; repeat case_match; simplify_eq.
    + by destruct Hnr; cbn.
    + assert (items0 = items) as -> by (by eapply items_of_inj).
      rewrite (deleted_nil _ Hnr), kept_nil in Hnew.
      destruct (IH (st_step cfg st x) m s new (items ++ added l)) as (cur' & more & ? & ?); try done; [by apply step_inv|].
      exists cur', (added l ++ more). by rewrite app_assoc.
Qed.

(** ** Reading the items *)
Lemma try_parse_page cur items l :
  (exists m s, l = ItemLoc m s) -> (forall p, cur = Some p -> page_wf cfg l p) -> items_of cur items ->
  try_parse false (pg_data (default pg_default cur)) = Ok (numbered 0 items).
Proof.
  intros Hl Hw Hi. destruct (items_cur cfg Hsz l cur Hl Hw) as (items' & Hi' & Hh & Hf & Hlen).
  assert (items' = items) as -> by (by eapply items_of_inj).
  unfold try_parse. rewrite Hh, parse_complete; [|done|lia|done]. f_equal.
  clear. generalize 0. induction items as [|it items IH]; intros k; [done|]. cbn [numbered map]. by rewrite IH.
Qed.

Lemma items_exist st m s cur :
  st_inv cfg st -> loc_ok (ItemLoc m s) -> read cfg st (ItemLoc m s) = Ok cur -> exists items, items_of cur items.
Proof.
  intros I Hl Hr. pose proof (cur_wf _ Hsz Hha _ _ _ I Hl Hr) as Hw.
  destruct (items_cur cfg Hsz (ItemLoc m s) cur) as (items & Hi & _); eauto.
Qed.

Lemma itemized_storage_iff env st m s hash nonce items :
  st_inv cfg st -> loc_ok (ItemLoc m s) ->
  get_itemized_storage cfg env st m s = Ok (hash, nonce, numbered 0 items) <->
  (exists i, v_schema env s = Some i /\ si_location i = Itemized) /\
  exists cur, read cfg st (ItemLoc m s) = Ok cur /\ items_of cur items /\ hash = content_hash cfg cur /\
    nonce = match cur with Some p => pg_nonce p | None => 0 end.
Proof.
  intros I Hl. unfold get_itemized_storage, check_schema_for_read. change (get_itemized_page_for cfg st m s) with (read cfg st (ItemLoc m s)).
  destruct (read_ok cfg Hsz Hha st (ItemLoc m s) I Hl) as [cur Hr]. rewrite Hr.
  pose proof (cur_wf _ Hsz Hha _ _ _ I Hl Hr) as Hw.
  destruct (items_cur cfg Hsz (ItemLoc m s) cur) as (items' & Hi & _); [eauto|done|].
  rewrite (try_parse_page cur items' (ItemLoc m s)) by eauto.
  destruct (v_schema env s) as [i|]; [|split; [done|by intros ((? & ? & _) & _)]].
  case_bool_decide as Hk; [|split; [done|]; intros ((i' & [= <-] & ?) & _); done].
  split.
  - intros H. injection H as <- <- Hn. split; [by exists i|]. exists cur. split; [done|].
    assert (items' = items) as -> by (rewrite <- (numbered_snd 0 items'), Hn; apply numbered_snd).
    split; [done|]. rewrite hash_default. by destruct cur.
  - intros (_ & cur' & [= <-] & Hi' & -> & ->). assert (items' = items) as -> by (by eapply items_of_inj).
    rewrite hash_default. by destruct cur.
Qed.

Lemma itemized_storage_ok env st m s :
  st_inv cfg st -> loc_ok (ItemLoc m s) -> (exists i, v_schema env s = Some i /\ si_location i = Itemized) ->
  exists hash nonce items, get_itemized_storage cfg env st m s = Ok (hash, nonce, numbered 0 items).
Proof.
  intros I Hl Hs. destruct (read_ok cfg Hsz Hha st (ItemLoc m s) I Hl) as [cur Hr].
  destruct (items_exist _ _ _ _ I Hl Hr) as [items Hi]. eexists _, _, items. apply itemized_storage_iff; eauto 10.
Qed.

Lemma itemized_storage_form env st m s r :
  st_inv cfg st -> loc_ok (ItemLoc m s) -> get_itemized_storage cfg env st m s = Ok r ->
  exists hash nonce items, r = (hash, nonce, numbered 0 items).
Proof.
  intros I Hl H.
  assert (Hs : exists i, v_schema env s = Some i /\ si_location i = Itemized).
  { unfold get_itemized_storage, check_schema_for_read in H. destruct (v_schema env s) as [i|]; [|done].
    case_bool_decide; [|done]. by exists i. }
  destruct (itemized_storage_ok env st m s I Hl Hs) as (a & b & c & E). rewrite E in H. injection H as <-. eauto.
Qed.

(** ** Replay *)
Definition nonce_of (cur : option Page) : N := match cur with Some p => pg_nonce p | None => 0 end.

Lemma next_nonce_of cur : next_nonce cur = (nonce_of cur + 1) mod 65536.
Proof. by destruct cur. Qed.

Lemma becomes_nonce cur ch new p : becomes cfg cur ch new -> new = Some p -> pg_nonce p = next_nonce cur.
Proof. intros [d| |l items n _ _ _ _ Hn] E; [by injection E as <-|done|]. subst. by destruct Hn. Qed.

Lemma nonce_track h : forall st l n0 k,
  st_inv cfg st -> envs_ok h -> loc_ok l ->
  Forall (fun r => ~ vacant r) (pages_seen cfg st h l) ->
  (exists p, read cfg st l = Ok (Some p) /\ pg_nonce p = (n0 + k) mod 65536) ->
  exists p k', read cfg (st_run cfg st h) l = Ok (Some p) /\ pg_nonce p = (n0 + k') mod 65536 /\ k <= k' /\ k' <= k + len h.
Proof.
  induction h as [|x h IH]; intros st l n0 k I He Hl Hv (p & Hr & Hn).
  { exists p, k. split; [done|]. split; [done|]. rewrite len_nil. lia. }
  inversion He; subst. cbn [pages_seen] in Hv. inversion Hv as [|? ? _ Hv']; subst. cbn. fold (st_run cfg (st_step cfg st x) h).
  rewrite len_cons.
  destruct (step_at st x l) as [Hsame|(rq & cur0 & new & Hrq & Hloc & Hp & Hr0 & Hm & Hb & Hr' & _)]; [done..| |].
  - destruct (IH (st_step cfg st x) l n0 k) as (p' & k' & ? & ? & ? & ?); try done; [by apply step_inv| |].
    { exists p. by rewrite Hsame. }
    exists p', k'. repeat (split; [done|]). lia.
  - assert (cur0 = Some p) as -> by congruence.
    destruct new as [q|].
    + destruct (IH (st_step cfg st x) l n0 (k + 1)) as (p' & k' & ? & ? & ? & ?); try done; [by apply step_inv| |].
      { exists q. split; [done|]. rewrite (becomes_nonce _ _ _ _ Hb eq_refl). unfold next_nonce. rewrite Hn.
        rewrite N.add_mod_idemp_l by done. f_equal. lia. }
      exists p', k'. repeat (split; [done|]). lia.
    + exfalso. destruct h; cbn [pages_seen] in Hv'; inversion Hv' as [|? ? Hn' _]; subst; apply Hn'; by rewrite Hr'.
Qed.

Lemma pages_seen_last h : forall st l, read cfg (st_run cfg st h) l ∈ pages_seen cfg st h l.
Proof. induction h as [|x h IH]; intros st l; cbn; [left|right; apply IH]. Qed.
Lemma pages_seen_first h st l : read cfg st l ∈ pages_seen cfg st h l.
Proof. destruct h; cbn; left. Qed.

Lemma mod_shift n k : n < 65536 -> 1 <= k -> k <= 65535 -> n <> (n + k) mod 65536.
Proof.
  intros Hn H1 H2 E. destruct (N.lt_ge_cases (n + k) 65536).
  - rewrite N.mod_small in E by done. lia.
  - assert (Hm : (n + k) mod 65536 = n + k - 65536).
    { symmetry. apply (N.mod_unique _ _ 1); lia. }
    lia.
Qed.

Lemma replay_rejected st x st2 h2 y rq :
  st_inv cfg st -> env_ok (x_env x) -> envs_ok h2 -> env_ok (x_env y) ->
  st_dispatch cfg (x_env x) st (x_origin x) (x_call x) = Ok st2 ->
  request (x_env x) (x_call x) = Some rq -> request (x_env y) (x_call y) = Some rq ->
  no_collision cfg (read cfg st (rq_loc rq) :: pages_seen cfg st2 h2 (rq_loc rq)) ->
  Forall (fun r => ~ vacant r) (pages_seen cfg st2 h2 (rq_loc rq)) ->
  len h2 < 65535 ->
  is_ok (st_dispatch cfg (x_env y) (st_run cfg st2 h2) (x_origin y) (x_call y)) = false.
Proof.
  intros I Hex He Hey Hx Hrq Hrqy Hnc Hv Hlen.
  pose proof (dispatch_inv cfg Hsz Hha _ _ _ _ _ I Hex Hx) as I2.
  apply call_effect in Hx as (rq' & cur & new & Hrq' & Hl & _ & _ & Hr & Hm & Hb & Hr2 & _); [|done..].
  assert (rq' = rq) as -> by congruence.
  destruct (is_ok _) eqn:E; [|done]. exfalso.
  apply call_ok_iff in E as (_ & rq' & cur3 & new3 & Hrq3 & _ & _ & Hr3 & Hm3 & _); [|by apply run_inv_from|done].
  assert (rq' = rq) as -> by congruence.
  assert (Hfirst := proj1 (Forall_forall _ _) Hv _ (pages_seen_first h2 st2 (rq_loc rq))). cbn in Hfirst. rewrite Hr2 in Hfirst.
  destruct new as [p2|]; [|by cbn in Hfirst].
  pose proof (becomes_nonce _ _ _ _ Hb eq_refl) as Hn2.
  destruct (nonce_track h2 st2 (rq_loc rq) (nonce_of cur) 1) as (p3 & k & Hp3 & Hn3 & Hk1 & Hk2); try done.
  { exists p2. split; [done|]. by rewrite Hn2, next_nonce_of. }
  assert (cur3 = Some p3) as -> by congruence.
  assert (Hlast := proj1 (Forall_forall _ _) Hv _ (pages_seen_last h2 st2 (rq_loc rq))). cbn in Hlast. rewrite Hp3 in Hlast. cbn in Hlast.
  destruct Hm3 as [Ht3|[? _]]; [|done].
  assert (Hin3 : Ok (Some p3) ∈ read cfg st (rq_loc rq) :: pages_seen cfg st2 h2 (rq_loc rq)).
  { right. rewrite <- Hp3. apply pages_seen_last. }
  destruct Hnc as [Hz Hinj].
  assert (Hd : cur <> None \/ rq_change rq <> ChDelete).
  { destruct Hb; [right; done|left|right; done]. done. }
  destruct Hm as [Ht|[-> Hd']]; [|by destruct Hd].
  rewrite Ht in Ht3. cbn [content_hash] in Ht3.
  destruct cur as [p1|]; [|cbn in Ht3; by destruct (Hz p3 Hin3 Hlast)].
  cbn [content_hash] in Ht3.
  assert (Hd1 : pg_data p1 <> []).
  { intros Hnil. apply (Hz p3 Hin3 Hlast). rewrite <- Ht3. unfold get_hash. by rewrite Hnil. }
  assert (p1 = p3) as -> by (apply Hinj; [rewrite Hr; left|done..]).
  destruct (read_wf cfg Hsz Hha _ _ _ I Hl Hr) as [[Hlt _] _].
  cbn [nonce_of] in Hn3. eapply (mod_shift (pg_nonce p3) k); [done|lia|lia|done].
Qed.

Lemma replay_needs_same st x st2 st3 y rq :
  st_inv cfg st -> env_ok (x_env x) -> st_inv cfg st3 -> env_ok (x_env y) ->
  st_dispatch cfg (x_env x) st (x_origin x) (x_call x) = Ok st2 ->
  request (x_env x) (x_call x) = Some rq -> request (x_env y) (x_call y) = Some rq ->
  no_collision cfg [read cfg st (rq_loc rq); read cfg st3 (rq_loc rq)] ->
  is_ok (st_dispatch cfg (x_env y) st3 (x_origin y) (x_call y)) = true ->
  read cfg st3 (rq_loc rq) = read cfg st (rq_loc rq) \/
  (vacant (read cfg st (rq_loc rq)) /\ vacant (read cfg st3 (rq_loc rq))) \/
  (rq_change rq = ChDelete /\ (read cfg st3 (rq_loc rq) = Ok None \/ read cfg st (rq_loc rq) = Ok None)).
Proof.
  intros I Hex I3 Hey Hx Hrq Hrqy [Hz Hinj] Hok.
  apply call_effect in Hx as (rq' & cur & new & Hrq' & Hl & _ & _ & Hr & Hm & _); [|done..].
  assert (rq' = rq) as -> by congruence.
  apply call_ok_iff in Hok as (_ & rq' & cur3 & new3 & Hrq3 & _ & _ & Hr3 & Hm3 & _); [|done..].
  assert (rq' = rq) as -> by congruence. rewrite Hr, Hr3 in *.
  destruct Hm3 as [H3|[-> Hd]]; [|right; right; by auto].
  destruct Hm as [H1|[-> Hd]]; [|right; right; by auto].
  rewrite H1 in H3. clear Hrq3.
  assert (Hp : forall p, Some p = cur \/ Some p = cur3 -> content_hash cfg (Some p) = 0 -> pg_data p = []).
  { intros p Hp H0. destruct (pg_data p) eqn:E; [done|]. exfalso. apply (Hz p); [|by rewrite E|done].
    destruct Hp as [->| ->]; [left|right; left]. }
  destruct cur as [p|], cur3 as [q|]; [|right; left|right; left|by left].
  - destruct (pg_data p) eqn:Ep; destruct (pg_data q) eqn:Eq.
    + right; left. done.
    + exfalso. cbn in H3. assert (get_hash cfg p = 0) as H0 by (unfold get_hash; by rewrite Ep). rewrite H0 in H3.
      rewrite Hp in Eq; auto; done.
    + exfalso. cbn in H3. assert (get_hash cfg q = 0) as H0 by (unfold get_hash; by rewrite Eq). rewrite H0 in H3.
      rewrite Hp in Ep; auto; done.
    + left. do 2 f_equal. symmetry. apply Hinj; [left|right; left|by rewrite Ep|by rewrite Eq|done].
  - cbn. split; [|done]. apply Hp; auto.
  - cbn. split; [done|]. apply Hp; auto.
Qed.

(** ** Events *)
Lemma announced_snoc evs e l :
  announced (evs ++ [e]) l = if bool_decide (event_loc e = l) then event_hash e else announced evs l.
Proof. unfold announced. by rewrite fold_left_app. Qed.

Definition chain_ok (evs : list StEvent) : Prop :=
  forall a e b, evs = a ++ e :: b -> event_prev e = announced a (event_loc e).

Definition ev_inv (st : StState) : Prop :=
  chain_ok (st_events st) /\ Forall (fun e => loc_ok (event_loc e)) (st_events st) /\
  forall l, loc_ok l -> exists cur, read cfg st l = Ok cur /\ announced (st_events st) l = content_hash cfg cur.

Lemma chain_snoc evs e : chain_ok evs -> event_prev e = announced evs (event_loc e) -> chain_ok (evs ++ [e]).
Proof.
  intros Hc He a e' b Heq. destruct b as [|b0 b _] using rev_ind.
  - apply app_inj_tail in Heq as [<- <-]. done.
  - rewrite app_comm_cons, app_assoc in Heq. apply app_inj_tail in Heq as [-> _]. by eapply Hc.
Qed.

Lemma store_events st l new : st_events (store cfg st l new) = st_events st.
Proof. by destruct new. Qed.

Lemma step_events st x : st_inv cfg st -> env_ok (x_env x) -> ev_inv st -> ev_inv (st_step cfg st x).
Proof.
  intros I He (Hc & Hlo & Ha). unfold st_step. destruct (st_dispatch _ _ _ _ _) as [st'|] eqn:E; [|done].
  pose proof E as E'. apply dispatch_effect in E' as (rq & cur & new & Hrq & Hl & Hch & _ & _ & Hr & Hb & Hcase); [|done..].
  destruct Hcase as [(_ & _ & ->)|(Ht & _ & Hst)]; [done|].
  destruct (event_for_spec cfg (rq_loc rq) cur new) as (E1 & E2 & E3).
  destruct (Ha (rq_loc rq) Hl) as (cur' & Hr' & Ha'). assert (cur' = cur) as -> by congruence.
  assert (Hev : st_events st' = st_events st ++ [event_for cfg (rq_loc rq) cur new]) by (subst; cbn; by rewrite store_events).
  apply call_effect in E as (rq2 & cur2 & new2 & Hrq2 & _ & _ & _ & Hr2 & _ & _ & Hnew & Ho); [|done..].
  assert (rq2 = rq) as -> by congruence.
  assert (Hnew' : read cfg st' (rq_loc rq) = Ok new).
  { subst st'. change (read cfg (deposit (store cfg st (rq_loc rq) new) (event_for cfg (rq_loc rq) cur new)))
      with (read cfg (store cfg st (rq_loc rq) new)). apply read_store_same; [done|].
    eapply becomes_wf; [|done|done]. by eapply cur_wf. }
  unfold ev_inv. rewrite Hev. split; [|split].
  - apply chain_snoc; [done|]. by rewrite E3, E1.
  - apply Forall_app. split; [done|]. repeat constructor. by rewrite E1.
  - intros l Hl'. rewrite announced_snoc, E1. case_bool_decide as Hd.
    + subst l. exists new. by rewrite E2.
    + rewrite Ho by (done || congruence). by apply Ha.
Qed.

Lemma genesis_read l : read cfg st_genesis l = Ok None.
Proof. rewrite read_eq. unfold try_read, get_raw. cbn. by rewrite !lookup_empty. Qed.

Lemma run_events_from h : forall st, st_inv cfg st -> envs_ok h -> ev_inv st -> ev_inv (st_run cfg st h).
Proof.
  induction h as [|x h IH]; intros st I He Hi; [done|]. inversion He; subst. cbn. apply IH; [by apply step_inv|done|by apply step_events].
Qed.
Lemma run_events h : envs_ok h -> ev_inv (st_run cfg st_genesis h).
Proof.
  intros He. apply run_events_from; [apply genesis_inv|done|]. split; [by intros [] ? ?|]. split; [constructor|].
  intros l _. exists None. split; [apply genesis_read|done].
Qed.

(** ** Listing the pages of a schema *)
Hypothesis Hkh : key_hash_ok cfg.

Lemma key_len x : length (f_key cfg x) = f_key_len cfg.
Proof. apply Hha. Qed.

Lemma u16_pair (s p : N) : s <= u16_max -> p <= u16_max -> dec_u16 (enc_u16 s ++ enc_u16 p) = Some (s, enc_u16 p).
Proof. intros Hs _. apply dec_u16_enc. unfold u16_max in *. lia. Qed.

Lemma list_entry_key s s' p pg :
  s <= u16_max -> s' <= u16_max -> p <= u16_max -> pg_nonce pg < 65536 -> len (pg_data pg) <= f_max_page cfg ->
  list_entry cfg (f_key cfg (enc_u16 s)) (paginated_key cfg s' p, enc_page pg) =
  if s' =? s then Some (p, get_hash cfg pg, pg_nonce pg, pg_data pg) else None.
Proof.
  intros Hs Hs' Hp Hn Hd. unfold list_entry, strip_prefix, paginated_key. cbn [fst snd].
  assert (Hlen : length (f_key cfg (enc_u16 s)) = length (f_key cfg (enc_u16 s'))) by (by rewrite !key_len).
  rewrite Hlen, take_app, drop_app.
  destruct (N.eqb_spec s' s) as [->|Hne].
  - rewrite bool_decide_eq_true_2 by done.
    rewrite dec_enc_page; [|done|done|apply Hsz].
    unfold dec_paginated_key, strip_hash.
    rewrite app_length, key_len. destruct (Nat.ltb_spec (f_key_len cfg + length (enc_u16 s ++ enc_u16 p)) (f_key_len cfg)); [lia|].
    rewrite <- (key_len (enc_u16 p)) at 1. rewrite drop_app. rewrite u16_pair by done.
    rewrite <- (app_nil_r (enc_u16 p)), dec_u16_enc by (unfold u16_max in *; lia). done.
  - rewrite bool_decide_eq_false_2; [done|]. intros Heq. apply Hkh in Heq; done.
Qed.

Lemma omap_nodup {A B} (f : A -> option B) (g : B -> N) (l : list A) :
  NoDup l -> (forall a a' b b', a ∈ l -> a' ∈ l -> f a = Some b -> f a' = Some b' -> g b = g b' -> a = a') ->
  NoDup (map g (omap f l)).
Proof.
  induction l as [|a l IH]; intros Hnd Hinj; [constructor|]. inversion Hnd as [|? ? Hni Hnd']; subst.
  cbn [omap list_omap]. destruct (f a) as [b|] eqn:E.
  - cbn [map]. constructor.
    + intros (b' & Hb & Hin)%elem_of_list_fmap. apply elem_of_list_omap in Hin as (a' & Ha' & Hf).
      assert (a = a') as <- by (eapply Hinj; [left|by right|done|done|done]). done.
    + apply IH; [done|]. intros x x' b1 b2 H1 H2 H3 H4 H5; by apply (Hinj x x' b1 b2); [right|right|..].
  - apply IH; [done|]. intros x x' b1 b2 H1 H2 H3 H4 H5; by apply (Hinj x x' b1 b2); [right|right|..].
Qed.

Lemma trie_entries st m kv :
  st_inv cfg st -> m <= u64_max ->
  kv ∈ map_to_list (default ∅ (st_tries st !! child_root cfg m paginated_prefix)) ->
  exists s p pg, kv = (paginated_key cfg s p, enc_page pg) /\ s <= u16_max /\ p <= u16_max /\
    pg_nonce pg < 65536 /\ len (pg_data pg) <= f_max_page cfg /\ read cfg st (PageLoc m s p) = Ok (Some pg).
Proof.
  intros I Hm Hin. destruct kv as [k v]. apply elem_of_map_to_list in Hin.
  destruct (I (child_root cfg m paginated_prefix) k v Hin) as (l & pg & Hl & Hp & Hroot & Hk & -> & Hw).
  destruct l as [m' s|m' s p]; unfold raw_root in Hroot; cbn in Hk.
  - exfalso. eapply child_root_inj in Hroot as [_ Hx]; [by destruct Hha as (_ & _ & _ & Hne & _); apply Hne|done|done|apply Hl].
  - destruct Hl as (Hm' & Hs & Hp'). eapply child_root_inj in Hroot as [<- _]; [|done|done|done].
    subst k. exists s, p, pg. destruct Hw as (? & ? & ? & _). repeat (split; [done|]).
    rewrite read_eq. unfold try_read, raw_root, raw_key, get_raw. rewrite Hin.
    rewrite dec_enc_page; [done|done|done|]. apply Hsz.
Qed.

Lemma listing_spec env st m s r :
  st_inv cfg st -> m <= u64_max -> s <= u16_max ->
  get_paginated_storage cfg env st m s = Ok r ->
  NoDup (map (fun e => e.1.1.1) r) /\
  forall p hash nonce data, (p, hash, nonce, data) ∈ r <->
    p <= u16_max /\ read cfg st (PageLoc m s p) = Ok (Some {| pg_nonce := nonce; pg_data := data |}) /\
    hash = content_hash cfg (Some {| pg_nonce := nonce; pg_data := data |}).
Proof.
  intros I Hm Hs H. unfold get_paginated_storage, check_schema_for_read in H.
  destruct (v_schema env s) as [i|]; [|done]. case_bool_decide; [|done]. injection H as <-. split.
  - apply (omap_nodup _ (fun e : N * N * N * list N => e.1.1.1)); [apply NoDup_map_to_list|].
    intros a a' b b' Ha Ha' Hf Hf' Hg.
    pose proof Ha as Hin. pose proof Ha' as Hin'.
    apply trie_entries in Ha as (s1 & p1 & g1 & -> & ? & ? & ? & ? & _); [|done..].
    apply trie_entries in Ha' as (s2 & p2 & g2 & -> & ? & ? & ? & ? & _); [|done..].
    rewrite list_entry_key in Hf, Hf' by done.
    destruct (N.eqb_spec s1 s) as [->|]; [|done]. destruct (N.eqb_spec s2 s) as [->|]; [|done].
    injection Hf as <-. injection Hf' as <-. cbn in Hg. subst p2.
    apply elem_of_map_to_list in Hin, Hin'. f_equal. congruence.
  - intros p hash nonce data. rewrite elem_of_list_omap. split.
    + intros ([k v] & Hin & Hf). apply trie_entries in Hin as (s1 & p1 & g1 & [= -> ->] & ? & ? & ? & ? & Hr); [|done..].
      rewrite list_entry_key in Hf by done. destruct (N.eqb_spec s1 s) as [->|]; [|done].
      injection Hf as <- <- <- <-. split; [done|]. by destruct g1.
    + intros (Hp & Hr & ->). destruct (read_cases cfg Hsz Hha st (PageLoc m s p) I) as [[_ Hr']|(pg & Hg & Hr' & Hw & _)]; [done|congruence|].
      assert (pg = {| pg_nonce := nonce; pg_data := data |}) as -> by congruence.
      exists (paginated_key cfg s p, enc_page {| pg_nonce := nonce; pg_data := data |}). split; [by apply elem_of_map_to_list|].
      destruct Hw as (? & ? & _). rewrite list_entry_key by done. by rewrite N.eqb_refl.
Qed.

End ok.
End st.
