(** Proofs about the stateful-storage pallet. *)
From Verif Require Import Prelude Scale ScaleDec CommonTypes SigModel MsaModel MsaSpec StModel StSpec.

(** ** Item pages *)
Lemma enc_u16_eq n : enc_u16 n = [n mod 256; (n / 256) mod 256].
Proof. done. Qed.

Lemma le_val_u16 n : n <= u16_max -> le_val [n mod 256; (n / 256) mod 256] = n.
Proof.
  intros H. change [n mod 256; (n / 256) mod 256] with (le_bytes 2 n). apply le_val_bytes.
  change (256 ^ N.of_nat 2) with 65536. unfold u16_max in H. lia.
Qed.

Lemma item_bytes_length it : length (item_bytes it) = S (S (length it)).
Proof. done. Qed.

Lemma page_bytes_cons it items : page_bytes (it :: items) = item_bytes it ++ page_bytes items.
Proof. done. Qed.
Lemma page_bytes_app a b : page_bytes (a ++ b) = page_bytes a ++ page_bytes b.
Proof. unfold page_bytes. by rewrite map_app, concat_app. Qed.

Definition shown (hdr : bool) (x : N * list N) : N * list N := (x.1, if hdr then item_bytes x.2 else x.2).

Lemma parse_complete hdr items : forall fuel c,
  Forall (fun it => len it <= u16_max) items -> c + len items <= u16_max ->
  (length (page_bytes items) <= fuel)%nat ->
  parse_loop hdr fuel c (page_bytes items) = Ok (map (shown hdr) (numbered c items)).
Proof.
  induction items as [|it items IH]; intros fuel c Hl Hc Hf; [by destruct fuel|].
  inversion Hl as [|? ? Hit Hl']; subst. rewrite page_bytes_cons in *. rewrite app_length, item_bytes_length in Hf.
  destruct fuel as [|fuel]; [lia|]. unfold item_bytes. rewrite enc_u16_eq. cbn [app parse_loop].
  rewrite le_val_u16 by done. rewrite app_length.
  assert (Hto : N.to_nat (len it) = length it) by (unfold len; lia). rewrite Hto.
  destruct (Nat.leb_spec (length it) (length it + length (page_bytes items))); [|lia].
  rewrite len_cons in Hc. unfold chk_add. destruct (N.leb_spec (c + 1) u16_max); [|lia].
  rewrite drop_app, IH; [|done|lia|lia]. rewrite take_app. by destruct hdr.
Qed.

Lemma parse_sound hdr : forall fuel c d l,
  parse_loop hdr fuel c d = Ok l -> Forall (fun b => b < 256) d ->
  exists items, d = page_bytes items /\ l = map (shown hdr) (numbered c items) /\
    Forall (fun it => len it <= u16_max) items /\ (items <> [] -> c + len items <= u16_max).
Proof.
  induction fuel as [|fuel IH]; intros c d l H Hb.
  - destruct d; [|done]. cbn in H. inv_ok. by exists [].
  - destruct d as [|b0 [|b1 r]]; cbn [parse_loop] in H; [inv_ok; by exists []|done|].
    destruct (Nat.leb_spec (N.to_nat (le_val [b0; b1])) (length r)) as [Hn|]; [|done].
    unfold chk_add in H. destruct (N.leb_spec (c + 1) u16_max) as [Hc|]; [|done].
    destruct (parse_loop _ _ _ _) as [rest|] eqn:E; [|done]. inv_ok.
    inversion Hb as [|? ? H0 Hb1]; subst. inversion Hb1 as [|? ? H1 Hb2]; subst.
    apply IH in E as (items & Hd & -> & Hl & Hcc); [|by apply Forall_drop].
    set (n := N.to_nat (le_val [b0; b1])) in *.
    assert (Hn2 : N.of_nat n = le_val [b0; b1]) by (unfold n; lia).
    assert (Hlen : len (take n r) = le_val [b0; b1]).
    { unfold len. rewrite take_length. lia. }
    assert (Hval : le_val [b0; b1] <= u16_max). { cbn. unfold u16_max. lia. }
    assert (Hitem : item_bytes (take n r) = b0 :: b1 :: take n r).
    { unfold item_bytes. rewrite Hlen. change (enc_u16 (le_val [b0; b1])) with (le_bytes 2 (le_val [b0; b1])).
      rewrite le_bytes_val; [done|done|]. by repeat constructor. }
    exists (take n r :: items). rewrite page_bytes_cons, Hitem, <- Hd. split; [cbn; by rewrite take_drop|]. split.
    + cbn [numbered map]. unfold shown at 2. cbn [fst snd]. rewrite Hitem. destruct hdr; done.
    + split; [constructor; [lia|done]|]. intros _. rewrite len_cons.
      destruct items as [|i items]; [rewrite len_nil; lia|]. specialize (Hcc ltac:(done)). lia.
Qed.

(** ** Actions *)
Lemma numbered_fst c items : forall x, x ∈ numbered c items -> c <= x.1 /\ x.1 < c + len items.
Proof.
  revert c. induction items as [|it items IH]; intros c x Hx; [by apply elem_of_nil in Hx|].
  cbn in Hx. rewrite len_cons. apply elem_of_cons in Hx as [->|Hx]; [cbn; lia|]. apply IH in Hx. lia.
Qed.
Lemma numbered_in c items i : c <= i -> i < c + len items -> i ∈ (numbered c items).*1.
Proof.
  revert c. induction items as [|it items IH]; intros c H1 H2; [rewrite len_nil in H2; lia|].
  rewrite len_cons in H2. cbn. destruct (decide (i = c)) as [->|]; [by left|]. right. apply IH; lia.
Qed.
Lemma numbered_nodup c items : NoDup (numbered c items).*1.
Proof.
  revert c. induction items as [|it items IH]; intros c; cbn; constructor; [|apply IH].
  intros (x & Hx & Hin)%elem_of_list_fmap. apply numbered_fst in Hin. lia.
Qed.
Lemma numbered_snd c items : map snd (numbered c items) = items.
Proof. revert c. induction items as [|it items IH]; intros c; cbn; [done|]. by rewrite IH. Qed.
Lemma numbered_length c items : length (numbered c items) = length items.
Proof. revert c. induction items as [|it items IH]; intros c; cbn; auto. Qed.

Lemma list_filter_eq (l : list (N * list N)) i :
  List.filter (fun it => negb (it.1 =? i)) l = filter (fun x => x.1 <> i) l.
Proof.
  induction l as [|x l IH]; [done|]. rewrite filter_cons. cbn [List.filter]. rewrite IH.
  destruct (N.eqb_spec x.1 i); cbn; [by rewrite decide_False by (intros ?; done)|by rewrite decide_True].
Qed.

Lemma filter_filter_not (l : list (N * list N)) i ds :
  filter (fun x => x.1 ∉ ds) (filter (fun x => x.1 <> i) l) = filter (fun x => x.1 ∉ i :: ds) l.
Proof.
  induction l as [|x l IH]; [done|]. rewrite !filter_cons.
  destruct (decide (x.1 <> i)) as [Hi|Hi].
  - rewrite filter_cons. destruct (decide (x.1 ∉ ds)) as [Hd|Hd].
    + rewrite decide_True by (apply not_elem_of_cons; done). by rewrite IH.
    + rewrite decide_False; [done|]. rewrite not_elem_of_cons. tauto.
  - rewrite (decide_False (P := x.1 ∉ i :: ds)); [done|]. rewrite not_elem_of_cons. tauto.
Qed.

Lemma filter_fst_in (l : list (N * list N)) i j :
  j ∈ (filter (fun x => x.1 <> i) l).*1 <-> j ∈ l.*1 /\ j <> i.
Proof.
  rewrite !elem_of_list_fmap. split.
  - intros (x & -> & Hx). apply elem_of_list_filter in Hx as [? ?]. split; [by exists x|done].
  - intros [(x & -> & Hx) Hne]. exists x. split; [done|]. by apply elem_of_list_filter.
Qed.

Lemma existsb_fst (l : list (N * list N)) i : existsb (fun it => it.1 =? i) l = true <-> i ∈ l.*1.
Proof.
  rewrite existsb_exists, elem_of_list_fmap. split.
  - intros (x & Hx & He). exists x. split; [lia|by apply elem_of_list_In].
  - intros (x & -> & Hx). exists x. split; [by apply elem_of_list_In|lia].
Qed.

Lemma action_loop_iff acts : forall (l : list (N * list N)) add l' add',
  action_loop acts l add = Ok (l', add') <->
  NoDup (deleted acts) /\ Forall (fun i => i ∈ l.*1) (deleted acts) /\
  Forall (fun d => len d <= u16_max) (added acts) /\
  l' = filter (fun x => x.1 ∉ deleted acts) l /\ add' = add ++ page_bytes (added acts).
Proof.
  induction acts as [|[d|i] acts IH]; intros l add l' add'; cbn [action_loop].
  - cbn. split.
    + intros H. inv_ok. split; [constructor|]. split; [constructor|]. split; [constructor|].
      split; [|by rewrite app_nil_r]. symmetry. apply list_filter_all || (clear; induction l' as [|x l IH]; [done|]; rewrite filter_cons, decide_True by (apply not_elem_of_nil); by rewrite IH).
    + intros (_ & _ & _ & -> & ->). f_equal. f_equal; [|by rewrite app_nil_r].
      symmetry. clear; induction l as [|x l IH]; [done|]; rewrite filter_cons, decide_True by (apply not_elem_of_nil); by rewrite IH.
  - change (deleted (Add d :: acts)) with (deleted acts). change (added (Add d :: acts)) with (d :: added acts).
    destruct (N.leb_spec (len d) u16_max).
    + rewrite IH. rewrite page_bytes_cons, Forall_cons. unfold item_bytes. rewrite !app_assoc. tauto.
    + split; [done|]. rewrite Forall_cons. intros (_ & _ & [? _] & _). lia.
  - change (deleted (Delete i :: acts)) with (i :: deleted acts). change (added (Delete i :: acts)) with (added acts).
    rewrite list_filter_eq. destruct (existsb _ l) eqn:Ex.
    + apply existsb_fst in Ex. rewrite IH, filter_filter_not, NoDup_cons, Forall_cons, !Forall_forall.
      split.
      * intros (Hnd & Hin & Ha & -> & ->). split; [split; [|done]|].
        { intros Hi. apply Hin in Hi. apply filter_fst_in in Hi as [_ ?]. done. }
        split; [split; [done|]|done]. intros x Hx. apply Hin in Hx. by apply filter_fst_in in Hx as [? _].
      * intros ([Hni Hnd] & [_ Hin] & Ha & -> & ->). split; [done|]. split; [|done].
        intros x Hx. apply filter_fst_in. split; [by apply Hin|]. intros ->. done.
    + split; [done|]. intros (_ & Hin & _). inversion Hin as [|? ? Hi]; subst. apply existsb_fst in Hi. congruence.
Qed.

Lemma kept_bytes items (ds : list N) :
  concat (map snd (filter (fun x => x.1 ∉ ds) (map (shown true) (numbered 0 items)))) = page_bytes (kept items ds).
Proof.
  unfold kept. generalize 0 as c. induction items as [|it items IH]; intros c; [done|].
  cbn [numbered map]. rewrite !filter_cons. cbn [shown fst]. case_decide.
  - cbn [map concat snd shown]. rewrite page_bytes_cons, IH. done.
  - apply IH.
Qed.

Lemma shown_fst hdr l : (map (shown hdr) l).*1 = l.*1.
Proof. induction l as [|x l IH]; [done|]. cbn. by rewrite <- IH. Qed.

Section st.
Variable cfg : StCfg.

(** A page that holds items. *)
Definition holds (p : Page) (items : list (list N)) : Prop :=
  pg_data p = page_bytes items /\ Forall (fun it => len it <= u16_max) items /\ len items <= u16_max.

Lemma len_page_bytes items : 2 * len items <= len (page_bytes items).
Proof.
  induction items as [|it items IH]; [done|]. rewrite page_bytes_cons, len_app, len_cons.
  assert (2 <= len (item_bytes it)) by (unfold len; rewrite item_bytes_length; lia). lia.
Qed.

Lemma apply_iff p items acts p' :
  holds p items ->
  apply_item_actions cfg p acts = Ok p' <->
  NoDup (deleted acts) /\ Forall (fun i => i < len items) (deleted acts) /\
  Forall (fun d => len d <= u16_max) (added acts) /\
  pg_nonce p' = 0 /\ pg_data p' = page_bytes (kept items (deleted acts) ++ added acts) /\
  len (page_bytes (kept items (deleted acts) ++ added acts)) <= f_max_item_page cfg.
Proof.
  intros (Hd & Hl & Hc). unfold apply_item_actions, try_parse.
  rewrite Hd, parse_complete by (done || lia).
  assert (Hin : forall i, i ∈ (map (shown true) (numbered 0 items)).*1 <-> i < len items).
  { intros i. rewrite shown_fst. split.
    - intros (x & -> & Hx)%elem_of_list_fmap. apply numbered_fst in Hx. lia.
    - intros Hi. apply numbered_in; lia. }
  split.
  - destruct (action_loop _ _ _) as [[l' add]|] eqn:E; [|done]. apply action_loop_iff in E as (Hnd & Hdel & Hadd & -> & ->).
    rewrite kept_bytes, app_nil_l, <- page_bytes_app.
    destruct (N.leb_spec (len (page_bytes (kept items (deleted acts) ++ added acts))) (f_max_item_page cfg)); [|done]. intros H0. inv_ok.
    split; [done|]. split; [|done]. eapply Forall_impl; [exact Hdel|]. intros i Hi. by apply Hin.
  - intros (Hnd & Hdel & Hadd & Hn & Hp & Hs).
    assert (E : action_loop acts (map (shown true) (numbered 0 items)) [] =
      Ok (filter (fun x => x.1 ∉ deleted acts) (map (shown true) (numbered 0 items)), [] ++ page_bytes (added acts))).
    { apply action_loop_iff. split; [done|]. split; [|done]. eapply Forall_impl; [exact Hdel|]. intros i Hi. by apply Hin. }
    rewrite E, kept_bytes, app_nil_l, <- page_bytes_app.
    destruct (N.leb_spec (len (page_bytes (kept items (deleted acts) ++ added acts))) (f_max_item_page cfg)); [|lia].
    destruct p'; cbn in *; by subst.
Qed.

(** ** Reading back what was written *)
Lemma dec_enc_page mx p :
  pg_nonce p < 65536 -> len (pg_data p) <= mx -> mx <= u32_max -> dec_page mx (enc_page p) = Some p.
Proof.
  intros Hn Hl Hm. unfold dec_page, enc_page. rewrite dec_u16_enc by done.
  rewrite <- (app_nil_r (enc_bytes _)), dec_bounded_enc by lia. by destruct p.
Qed.

Lemma get_put st r k v r' k' :
  get_raw (put_raw st r k v) r' k' = if decide (r' = r /\ k' = k) then Some v else get_raw st r' k'.
Proof.
  unfold get_raw, put_raw. cbn. destruct (decide (r' = r)) as [->|Hr].
  - rewrite lookup_insert. cbn. destruct (decide (k' = k)) as [->|Hk].
    + rewrite lookup_insert, decide_True; done.
    + rewrite lookup_insert_ne, decide_False; [done|tauto|done].
  - rewrite lookup_insert_ne, decide_False; [done|tauto|done].
Qed.
Lemma get_kill st r k r' k' :
  get_raw (kill_raw st r k) r' k' = if decide (r' = r /\ k' = k) then None else get_raw st r' k'.
Proof.
  unfold get_raw, kill_raw. cbn. destruct (decide (r' = r)) as [->|Hr].
  - rewrite lookup_insert. cbn. destruct (decide (k' = k)) as [->|Hk].
    + rewrite lookup_delete, decide_True; done.
    + rewrite lookup_delete_ne, decide_False; [done|tauto|done].
  - rewrite lookup_insert_ne, decide_False; [done|tauto|done].
Qed.
Lemma get_deposit st e r k : get_raw (deposit st e) r k = get_raw st r k.
Proof. done. Qed.

(** ** Places and raw keys *)
Definition raw_root (l : Loc) : list N :=
  match l with
  | ItemLoc m _ => child_root cfg m itemized_prefix
  | PageLoc m _ _ => child_root cfg m paginated_prefix
  end.
Definition raw_key (l : Loc) : list N :=
  match l with
  | ItemLoc _ s => itemized_key cfg s
  | PageLoc _ s p => paginated_key cfg s p
  end.
Definition max_of (l : Loc) : N := match l with ItemLoc _ _ => f_max_item_page cfg | PageLoc _ _ _ => f_max_page cfg end.

Lemma read_eq st l : read cfg st l = try_read (max_of l) st (raw_root l) (raw_key l).
Proof. by destruct l. Qed.

Lemma u16_lt n : n <= u16_max -> n < 256 ^ N.of_nat 2.
Proof. unfold u16_max. change (256 ^ N.of_nat 2) with 65536. lia. Qed.
Lemma u64_lt n : n <= u64_max -> n < 256 ^ N.of_nat 8.
Proof. unfold u64_max. change (256 ^ N.of_nat 8) with 18446744073709551616. lia. Qed.

Lemma itemized_key_inj s s' : s <= u16_max -> s' <= u16_max -> itemized_key cfg s = itemized_key cfg s' -> s = s'.
Proof.
  intros Hs Hs' H. apply app_inj_2 in H as [_ H]; [|done].
  by apply le_bytes_inj in H; [|by apply u16_lt..].
Qed.
Lemma paginated_key_inj s s' p p' :
  s <= u16_max -> s' <= u16_max -> p <= u16_max -> p' <= u16_max ->
  paginated_key cfg s p = paginated_key cfg s' p' -> s = s' /\ p = p'.
Proof.
  unfold paginated_key. intros Hs Hs' Hp Hp' H. rewrite !app_assoc in H. apply app_inj_2 in H as [H1 H2]; [|done].
  apply app_inj_2 in H1 as [_ H1]; [|done].
  apply le_bytes_inj in H2; [|by apply u16_lt..]. apply le_bytes_inj in H1; [|by apply u16_lt..]. done.
Qed.

Lemma child_root_inj m m' n n' :
  hashes_ok cfg -> m <= u64_max -> m' <= u64_max -> child_root cfg m n = child_root cfg m' n' ->
  m = m' /\ f_twox64 cfg n = f_twox64 cfg n'.
Proof.
  intros (Hb & Hbl & _ & _ & _) Hm Hm' H. unfold child_root in H.
  apply app_inj_1 in H as [H1 H2]; [|by rewrite !Hbl]. split; [by apply Hb|]. by apply app_inv_head in H2.
Qed.

Lemma raw_inj l l' :
  hashes_ok cfg -> loc_ok l -> loc_ok l' -> raw_root l = raw_root l' -> raw_key l = raw_key l' -> l = l'.
Proof.
  intros Hh Hl Hl' Hr Hk. pose proof Hh as (_ & _ & _ & Hne & _).
  destruct l as [m s|m s p], l' as [m' s'|m' s' p']; cbn in *; apply child_root_inj in Hr as [-> Hn]; try tauto.
  - f_equal. apply itemized_key_inj in Hk; tauto.
  - symmetry in Hn. tauto.
  - apply paginated_key_inj in Hk as [-> ->]; tauto.
Qed.

(** ** What a call does *)
Definition perform (st : StState) (rq : Request) : res StErr StState :=
  match rq_loc rq, rq_change rq with
  | ItemLoc m s, ChItems l => update_itemized cfg st m s (rq_target rq) l
  | PageLoc m s p, ChWrite d => update_paginated cfg st m s p (rq_target rq) d
  | PageLoc m s p, ChDelete => delete_paginated cfg st m s p (rq_target rq)
  | _, _ => Err SBadOrigin
  end.

Definition rq_page_ok (rq : Request) : Prop :=
  match rq_loc rq with ItemLoc _ _ => True | PageLoc _ _ p => p <= f_max_page_id cfg end.

Definition rq_deleting (rq : Request) : bool :=
  match rq_change rq with ChItems l => existsb is_delete l | ChWrite _ => false | ChDelete => true end.

Definition schema_allows (env : StEnv) (rq : Request) (owner : bool) : Prop :=
  exists i, v_schema env (loc_schema (rq_loc rq)) = Some i /\ si_location i = loc_kind (rq_loc rq) /\
    (set_signature_required (si_settings i) = true -> owner = true) /\
    (set_append_only (si_settings i) = true -> rq_deleting rq = false).

Lemma schema_write_iff env s loc sg del :
  check_schema_for_write env s loc sg del = Ok tt <->
  exists i, v_schema env s = Some i /\ si_location i = loc /\
    (set_signature_required (si_settings i) = true -> sg = true) /\ (set_append_only (si_settings i) = true -> del = false).
Proof.
  unfold check_schema_for_write, check_schema_for_read. destruct (v_schema env s) as [i|]; [|split; [done|by intros (? & ? & _)]].
  case_bool_decide as Hl; [|split; [done|]; intros (i' & [= <-] & ? & _); done].
  split.
  - intros H. exists i. split; [done|]. split; [done|].
    destruct (set_signature_required _), (set_append_only _), sg, del; cbn in H; try done; split; intros; done.
  - intros (i' & [= <-] & _ & Hs & Ha).
    destruct (set_signature_required _), (set_append_only _), sg, del; cbn; try done;
      try (specialize (Hs eq_refl); done); try (specialize (Ha eq_refl); done).
Qed.

Lemma expiration_iff now e :
  check_payload_expiration cfg now e = Ok tt <-> now < e /\ e < (now + f_window cfg) mod 4294967296.
Proof.
  unfold check_payload_expiration, wrap_add. change (u32_max + 1) with 4294967296.
  destruct (N.ltb_spec now e); [|split; [done|lia]].
  destruct (N.ltb_spec e ((now + f_window cfg) mod 4294967296)); [done|split; [done|lia]].
Qed.

Lemma grants_iff env key owner schema caller :
  check_msa_and_grants env key owner schema = Ok caller <->
  controls (v_msa env) key caller /\ (caller = owner \/ schema_ok (v_env env) (v_msa env) caller owner schema).
Proof.
  unfold check_msa_and_grants, st_msa_of_key, ensure_valid_msa_key, controls, schema_ok, v_block.
  destruct (ms_keys (v_msa env) !! key) as [m|]; [|split; [done|by intros [? _]]].
  destruct (N.eqb_spec m owner) as [->|Hne].
  - split; [intros H; inv_ok; auto|intros [[= <-] _]; done].
  - destruct (ensure_valid_schema_grant _ _ _ _ _ _) eqn:E.
    + split; [intros H; inv_ok; split; [done|]; right; by rewrite E|]. intros [[= <-] _]. done.
    + split; [done|]. intros [[= <-] [->|Hg]]; [done|]. by rewrite E in Hg.
Qed.

Lemma check_msa_iff env key m : check_msa env key m = Ok tt <-> controls (v_msa env) key m.
Proof.
  unfold check_msa, st_msa_of_key, ensure_valid_msa_key, controls.
  destruct (ms_keys (v_msa env) !! key) as [m'|]; [|done].
  destruct (N.eqb_spec m' m) as [->|]; [done|]. split; [done|]. by intros [= <-].
Qed.

(** Acceptance and effect of a call, in one place. *)
Definition allowed (env : StEnv) (o : Origin) (c : StCall) (rq : Request) : Prop :=
  match signature_of c with
  | None => exists who caller, o = Signed who /\ controls (v_msa env) who caller /\
      (caller = loc_msa (rq_loc rq) \/ schema_ok (v_env env) (v_msa env) caller (loc_msa (rq_loc rq)) (loc_schema (rq_loc rq))) /\
      schema_allows env rq (caller =? loc_msa (rq_loc rq))
  | Some _ => (exists who, o = Signed who) /\ owner_signed cfg env c (loc_msa (rq_loc rq)) /\ schema_allows env rq true
  end.

Ltac use_schema Hs := apply (proj2 (schema_write_iff _ _ _ _ _)) in Hs; unfold rq_deleting in Hs; cbn [rq_loc rq_change rq_target loc_schema loc_kind loc_msa] in Hs; rewrite Hs.

Lemma dispatch_iff env st o c st' :
  st_dispatch cfg env st o c = Ok st' <->
  call_ok cfg c = true /\ exists rq, request env c = Some rq /\ rq_page_ok rq /\ allowed env o c rq /\ perform st rq = Ok st'.
Proof.
  unfold st_dispatch. destruct (call_ok cfg c); [|split; [done|by intros [? _]]].
  destruct o as [who|]; [|split; [done|]; intros (_ & rq & _ & _ & Ha & _); unfold allowed in Ha;
    destruct (signature_of c); [destruct Ha as [[? ?] _]; done|destruct Ha as (? & ? & ? & _); done]].
  destruct c; cbn [request].
  - (* apply items *)
    split.
    + destruct (check_msa_and_grants _ _ _ _) as [caller|] eqn:E1; [|done]. apply grants_iff in E1 as [Hc Hg].
      destruct (check_schema_for_write _ _ _ _ _) as [[]|] eqn:E2; [|done]. apply schema_write_iff in E2.
      intros H. split; [done|]. eexists. split; [done|]. split; [done|]. split; [|exact H].
      exists who, caller. done.
    + intros (_ & rq & [= <-] & _ & (who' & caller & [= <-] & Hc & Hg & Hs) & Hp). cbn [rq_loc rq_change rq_target loc_msa loc_schema loc_kind] in *.
      rewrite (proj2 (grants_iff _ _ _ _ caller) (conj Hc Hg)). use_schema Hs. done.
  - split.
    + destruct (N.leb_spec page (f_max_page_id cfg)); [|done].
      destruct (check_msa_and_grants _ _ _ _) as [caller|] eqn:E1; [|done]. apply grants_iff in E1 as [Hc Hg].
      destruct (check_schema_for_write _ _ _ _ _) as [[]|] eqn:E2; [|done]. apply schema_write_iff in E2.
      intros H0. split; [done|]. eexists. split; [done|]. split; [done|]. split; [|exact H0].
      exists who, caller. done.
    + intros (_ & rq & [= <-] & Hpg & (who' & caller & [= <-] & Hc & Hg & Hs) & Hp). cbn [rq_loc rq_change rq_target loc_msa loc_schema loc_kind] in *.
      destruct (N.leb_spec page (f_max_page_id cfg)); [|unfold rq_page_ok in Hpg; cbn in Hpg; lia].
      rewrite (proj2 (grants_iff _ _ _ _ caller) (conj Hc Hg)). use_schema Hs. done.
  - split.
    + destruct (N.leb_spec page (f_max_page_id cfg)); [|done].
      destruct (check_msa_and_grants _ _ _ _) as [caller|] eqn:E1; [|done]. apply grants_iff in E1 as [Hc Hg].
      destruct (check_schema_for_write _ _ _ _ _) as [[]|] eqn:E2; [|done]. apply schema_write_iff in E2.
      intros H0. split; [done|]. eexists. split; [done|]. split; [done|]. split; [|exact H0].
      exists who, caller. done.
    + intros (_ & rq & [= <-] & Hpg & (who' & caller & [= <-] & Hc & Hg & Hs) & Hp). cbn [rq_loc rq_change rq_target loc_msa loc_schema loc_kind] in *.
      destruct (N.leb_spec page (f_max_page_id cfg)); [|unfold rq_page_ok in Hpg; cbn in Hpg; lia].
      rewrite (proj2 (grants_iff _ _ _ _ caller) (conj Hc Hg)). use_schema Hs. done.
  - split.
    + destruct (check_payload_expiration _ _ _) as [[]|] eqn:E1; [|done]. apply expiration_iff in E1 as [? ?].
      unfold check_signature. destruct (f_verify _ _ _ _) eqn:E2; [|done].
      destruct (check_msa _ _ _) as [[]|] eqn:E3; [|done]. apply check_msa_iff in E3.
      destruct (check_schema_for_write _ _ _ _ _) as [[]|] eqn:E4; [|done]. apply schema_write_iff in E4.
      intros H1. split; [done|]. eexists. split; [done|]. split; [done|]. split; [|exact H1].
      split; [by exists who|]. split; [|done]. eexists _, _, _, _. done.
    + intros (_ & rq & [= <-] & Hpg & (_ & (k & s & bs & e & [= <- <- <- <-] & Hc & Hv & H1 & H2) & Hs) & Hp). cbn [rq_loc rq_change rq_target loc_msa loc_schema loc_kind] in *.
      rewrite (proj2 (expiration_iff _ _) (conj H1 H2)). unfold check_signature. rewrite Hv, (proj2 (check_msa_iff _ _ _) Hc). use_schema Hs. done.
  - split.
    + destruct (N.leb_spec (up_page p) (f_max_page_id cfg)); [|done].
      destruct (check_payload_expiration _ _ _) as [[]|] eqn:E1; [|done]. apply expiration_iff in E1 as [? ?].
      unfold check_signature. destruct (f_verify _ _ _ _) eqn:E2; [|done].
      destruct (check_msa _ _ _) as [[]|] eqn:E3; [|done]. apply check_msa_iff in E3.
      destruct (check_schema_for_write _ _ _ _ _) as [[]|] eqn:E4; [|done]. apply schema_write_iff in E4.
      intros H2. split; [done|]. eexists. split; [done|]. split; [done|]. split; [|exact H2].
      split; [by exists who|]. split; [|done]. eexists _, _, _, _. done.
    + intros (_ & rq & [= <-] & Hpg & (_ & (k & s & bs & e & [= <- <- <- <-] & Hc & Hv & H1 & H2) & Hs) & Hp). cbn [rq_loc rq_change rq_target loc_msa loc_schema loc_kind] in *.
      destruct (N.leb_spec (up_page p) (f_max_page_id cfg)); [|unfold rq_page_ok in Hpg; cbn in Hpg; lia].
      rewrite (proj2 (expiration_iff _ _) (conj H1 H2)). unfold check_signature. rewrite Hv, (proj2 (check_msa_iff _ _ _) Hc). use_schema Hs. done.
  - split.
    + destruct (N.leb_spec (dp_page p) (f_max_page_id cfg)); [|done].
      destruct (check_payload_expiration _ _ _) as [[]|] eqn:E1; [|done]. apply expiration_iff in E1 as [? ?].
      unfold check_signature. destruct (f_verify _ _ _ _) eqn:E2; [|done].
      destruct (check_msa _ _ _) as [[]|] eqn:E3; [|done]. apply check_msa_iff in E3.
      destruct (check_schema_for_write _ _ _ _ _) as [[]|] eqn:E4; [|done]. apply schema_write_iff in E4.
      intros H2. split; [done|]. eexists. split; [done|]. split; [done|]. split; [|exact H2].
      split; [by exists who|]. split; [|done]. eexists _, _, _, _. done.
    + intros (_ & rq & [= <-] & Hpg & (_ & (k & s & bs & e & [= <- <- <- <-] & Hc & Hv & H1 & H2) & Hs) & Hp). cbn [rq_loc rq_change rq_target loc_msa loc_schema loc_kind] in *.
      destruct (N.leb_spec (dp_page p) (f_max_page_id cfg)); [|unfold rq_page_ok in Hpg; cbn in Hpg; lia].
      rewrite (proj2 (expiration_iff _ _) (conj H1 H2)). unfold check_signature. rewrite Hv, (proj2 (check_msa_iff _ _ _) Hc). use_schema Hs. done.
  - unfold st_msa_of_key, ensure_valid_msa_key. split.
    + destruct (check_payload_expiration _ _ _) as [[]|] eqn:E1; [|done]. apply expiration_iff in E1 as [? ?].
      unfold check_signature. destruct (f_verify _ _ _ _) eqn:E2; [|done].
      destruct (ms_keys (v_msa env) !! delegator_key) as [m|] eqn:E3; [|done].
      destruct (check_schema_for_write _ _ _ _ _) as [[]|] eqn:E4; [|done]. apply schema_write_iff in E4.
      intros H1. split; [done|]. eexists. split; [done|]. split; [done|]. split; [|exact H1].
      split; [by exists who|]. split; [|done]. eexists _, _, _, _. done.
    + intros (_ & rq & Hrq & Hpg & (_ & (k & s & bs & e & [= <- <- <- <-] & Hc & Hv & H1 & H2) & Hs) & Hp).
      destruct (ms_keys (v_msa env) !! delegator_key) as [m|] eqn:E3; [|done]. injection Hrq as <-. cbn [rq_loc rq_change rq_target loc_msa loc_schema loc_kind] in *.
      rewrite (proj2 (expiration_iff _ _) (conj H1 H2)). unfold check_signature. rewrite Hv. use_schema Hs. done.
  - unfold st_msa_of_key, ensure_valid_msa_key. split.
    + destruct (N.leb_spec (up2_page p) (f_max_page_id cfg)); [|done].
      destruct (check_payload_expiration _ _ _) as [[]|] eqn:E1; [|done]. apply expiration_iff in E1 as [? ?].
      unfold check_signature. destruct (f_verify _ _ _ _) eqn:E2; [|done].
      destruct (ms_keys (v_msa env) !! delegator_key) as [m|] eqn:E3; [|done].
      destruct (check_schema_for_write _ _ _ _ _) as [[]|] eqn:E4; [|done]. apply schema_write_iff in E4.
      intros H2. split; [done|]. eexists. split; [done|]. split; [done|]. split; [|exact H2].
      split; [by exists who|]. split; [|done]. eexists _, _, _, _. done.
    + intros (_ & rq & Hrq & Hpg & (_ & (k & s & bs & e & [= <- <- <- <-] & Hc & Hv & H1 & H2) & Hs) & Hp).
      destruct (ms_keys (v_msa env) !! delegator_key) as [m|] eqn:E3; [|done]. injection Hrq as <-. cbn [rq_loc rq_change rq_target loc_msa loc_schema loc_kind] in *.
      destruct (N.leb_spec (up2_page p) (f_max_page_id cfg)); [|unfold rq_page_ok in Hpg; cbn in Hpg; lia].
      rewrite (proj2 (expiration_iff _ _) (conj H1 H2)). unfold check_signature. rewrite Hv. use_schema Hs. done.
  - unfold st_msa_of_key, ensure_valid_msa_key. split.
    + destruct (N.leb_spec (dp2_page p) (f_max_page_id cfg)); [|done].
      destruct (check_payload_expiration _ _ _) as [[]|] eqn:E1; [|done]. apply expiration_iff in E1 as [? ?].
      unfold check_signature. destruct (f_verify _ _ _ _) eqn:E2; [|done].
      destruct (ms_keys (v_msa env) !! delegator_key) as [m|] eqn:E3; [|done].
      destruct (check_schema_for_write _ _ _ _ _) as [[]|] eqn:E4; [|done]. apply schema_write_iff in E4.
      intros H2. split; [done|]. eexists. split; [done|]. split; [done|]. split; [|exact H2].
      split; [by exists who|]. split; [|done]. eexists _, _, _, _. done.
    + intros (_ & rq & Hrq & Hpg & (_ & (k & s & bs & e & [= <- <- <- <-] & Hc & Hv & H1 & H2) & Hs) & Hp).
      destruct (ms_keys (v_msa env) !! delegator_key) as [m|] eqn:E3; [|done]. injection Hrq as <-. cbn [rq_loc rq_change rq_target loc_msa loc_schema loc_kind] in *.
      destruct (N.leb_spec (dp2_page p) (f_max_page_id cfg)); [|unfold rq_page_ok in Hpg; cbn in Hpg; lia].
      rewrite (proj2 (expiration_iff _ _) (conj H1 H2)). unfold check_signature. rewrite Hv. use_schema Hs. done.
Qed.

(** ** The invariant: everything stored is the encoding of a well-formed page *)
Definition loc_page_ok (l : Loc) : Prop := match l with ItemLoc _ _ => True | PageLoc _ _ p => p <= f_max_page_id cfg end.

Definition page_wf (l : Loc) (p : Page) : Prop :=
  pg_nonce p < 65536 /\ len (pg_data p) <= max_of l /\ Forall (fun b => b < 256) (pg_data p) /\
  match l with ItemLoc _ _ => exists items, items_of (Some p) items | PageLoc _ _ _ => True end.

Definition st_inv (st : StState) : Prop :=
  forall r k v, get_raw st r k = Some v ->
    exists l p, loc_ok l /\ loc_page_ok l /\ r = raw_root l /\ k = raw_key l /\ v = enc_page p /\ page_wf l p.

Lemma genesis_inv : st_inv st_genesis.
Proof. intros r k v H. unfold get_raw in H. cbn in H. by rewrite !lookup_empty in H. Qed.

Section ok.
Hypothesis Hsz : sizes_ok cfg.
Hypothesis Hha : hashes_ok cfg.

Lemma max_of_u32 l : max_of l <= u32_max.
Proof. destruct Hsz as [? ?]. destruct l; cbn; unfold u32_max in *; lia. Qed.

Lemma items_fit l p items : page_wf l p -> (exists m s, l = ItemLoc m s) -> items_of (Some p) items -> len items <= u16_max.
Proof.
  intros (_ & Hl & _) (m & s & ->) (Hd & _). cbn in Hl. rewrite Hd in Hl. pose proof (len_page_bytes items). destruct Hsz.
  unfold u16_max. lia.
Qed.

Lemma read_cases st l :
  st_inv st -> loc_ok l ->
  (get_raw st (raw_root l) (raw_key l) = None /\ read cfg st l = Ok None) \/
  (exists p, get_raw st (raw_root l) (raw_key l) = Some (enc_page p) /\ read cfg st l = Ok (Some p) /\ page_wf l p /\ loc_page_ok l).
Proof.
  intros I Hl. rewrite read_eq. unfold try_read. destruct (get_raw _ _ _) as [v|] eqn:E; [right|by left].
  destruct (I _ _ _ E) as (l' & p & Hl' & Hp & Hr & Hk & -> & Hw).
  apply raw_inj in Hk; [|done..]. subst l'. exists p. split; [done|].
  rewrite dec_enc_page; [done|apply Hw|apply Hw|apply max_of_u32].
Qed.

Lemma read_wf st l p : st_inv st -> loc_ok l -> read cfg st l = Ok (Some p) -> page_wf l p /\ loc_page_ok l.
Proof. intros I Hl H. destruct (read_cases st l I Hl) as [[_ Hr]|(p' & _ & Hr & Hw)]; rewrite Hr in H; by inv_ok; simplify_eq. Qed.

Lemma read_ok st l : st_inv st -> loc_ok l -> exists cur, read cfg st l = Ok cur.
Proof. intros I Hl. destruct (read_cases st l I Hl) as [[_ Hr]|(p' & _ & Hr & Hw)]; eauto. Qed.

Definition store (st : StState) (l : Loc) (new : option Page) : StState :=
  match new with
  | Some p => put_raw st (raw_root l) (raw_key l) (enc_page p)
  | None => kill_raw st (raw_root l) (raw_key l)
  end.

Lemma read_raw st st' l : get_raw st' (raw_root l) (raw_key l) = get_raw st (raw_root l) (raw_key l) -> read cfg st' l = read cfg st l.
Proof. intros H. rewrite !read_eq. unfold try_read. by rewrite H. Qed.

Lemma read_store_same st l new :
  (forall p, new = Some p -> page_wf l p) -> read cfg (store st l new) l = Ok new.
Proof.
  intros Hw. rewrite read_eq. unfold try_read, store. destruct new as [p|].
  - rewrite get_put, decide_True by done. specialize (Hw p eq_refl). rewrite dec_enc_page; [done|apply Hw|apply Hw|apply max_of_u32].
  - by rewrite get_kill, decide_True.
Qed.

Lemma read_store_other st l l' new :
  loc_ok l -> loc_ok l' -> l' <> l -> read cfg (store st l new) l' = read cfg st l'.
Proof.
  intros Hl Hl' Hne. apply read_raw.
  assert (Hn : ~ (raw_root l' = raw_root l /\ raw_key l' = raw_key l)) by (intros [? ?]; apply Hne; by apply raw_inj).
  unfold store. destruct new; [rewrite get_put|rewrite get_kill]; by rewrite decide_False.
Qed.

Lemma store_inv st l new :
  st_inv st -> loc_ok l -> loc_page_ok l -> (forall p, new = Some p -> page_wf l p) -> st_inv (store st l new).
Proof.
  intros I Hl Hp Hw r k v. unfold store. destruct new as [p|]; [rewrite get_put|rewrite get_kill].
  - destruct (decide _) as [[-> ->]|]; [|apply I]. intros [= <-]. exists l, p. repeat (split; [done|]). by apply Hw.
  - destruct (decide _) as [[-> ->]|]; [done|apply I].
Qed.

(** ** The change of one call *)
Definition change_ok (l : Loc) (ch : Change) : Prop :=
  match l, ch with
  | ItemLoc _ _, ChItems acts => Forall (fun d => Forall (fun b => b < 256) d) (added acts)
  | PageLoc _ _ _, ChWrite d => len d <= f_max_page cfg /\ Forall (fun b => b < 256) d
  | PageLoc _ _ _, ChDelete => True
  | _, _ => False
  end.

Lemma kept_sub items ds it : it ∈ kept items ds -> it ∈ items.
Proof.
  unfold kept. intros (x & -> & Hx)%elem_of_list_fmap. apply elem_of_list_filter in Hx as [_ Hx].
  rewrite <- (numbered_snd 0 items). apply elem_of_list_fmap. by exists x.
Qed.

Lemma page_bytes_nil items : page_bytes items = [] <-> items = [].
Proof. split; [|by intros ->]. by destruct items. Qed.

Lemma page_bytes_byte items : Forall (fun b => b < 256) (page_bytes items) <-> Forall (Forall (fun b => b < 256)) items.
Proof.
  induction items as [|it items IH]; [split; constructor|]. rewrite page_bytes_cons, Forall_app, IH, Forall_cons.
  unfold item_bytes. rewrite Forall_app. pose proof (le_bytes_byte 2 (len it)) as H. change (le_bytes 2 (len it)) with (enc_u16 (len it)) in H.
  split; [by intros ((_ & ?) & ?)|by intros [? ?]].
Qed.

Lemma becomes_wf l cur ch new :
  (forall p, cur = Some p -> page_wf l p) -> change_ok l ch -> becomes cfg cur ch new -> forall p, new = Some p -> page_wf l p.
Proof.
  intros Hc Hch Hb p ->.
  assert (Hn : next_nonce cur < 65536) by (apply N.mod_lt; lia).
  inversion Hb as [d|l0 items|l0 items new Hi Hnd Hr Hni Hnn]; subst.
  - destruct l; [done|]. destruct Hch. repeat split; done.
  - destruct l as [m s|]; [|done]. destruct Hnn as [Hno Hl]. split; [by rewrite Hno|]. split; [done|].
    split; [|by eexists]. destruct Hni as (Hd & _ & _). rewrite Hd, page_bytes_byte, Forall_app. split; [|done].
    apply Forall_forall. intros it Hin. apply kept_sub in Hin. destruct cur as [q|]; [|cbn in Hi; subst; by apply elem_of_nil in Hin].
    destruct Hi as (Hq & _ & _). specialize (Hc q eq_refl) as (_ & _ & Hb' & _). rewrite Hq, page_bytes_byte in Hb'.
    by eapply Forall_forall in Hb'.
Qed.

Lemma wrap_next (cur : option Page) : wrap_add u16_max (pg_nonce (default pg_default cur)) 1 = next_nonce cur.
Proof. unfold wrap_add, next_nonce. change (u16_max + 1) with 65536. by destruct cur. Qed.

Lemma hash_default (cur : option Page) : get_hash cfg (default pg_default cur) = content_hash cfg cur.
Proof. by destruct cur. Qed.

Lemma items_cur l cur : (exists m s, l = ItemLoc m s) -> (forall p, cur = Some p -> page_wf l p) ->
  exists items, items_of cur items /\ holds (default pg_default cur) items.
Proof.
  intros Hl Hw. destruct cur as [p|].
  - pose proof (Hw p eq_refl) as Hwp. pose proof Hwp as (_ & _ & _ & Hi). destruct Hl as (m & s & ->). destruct Hi as [items Hi].
    exists items. split; [done|]. split; [apply Hi|]. split; [apply Hi|]. eapply items_fit; eauto.
  - exists []. split; [done|]. split; [done|]. split; [constructor|]. done.
Qed.

Definition hash_matches (cur : option Page) (rq : Request) : Prop :=
  rq_target rq = content_hash cfg cur \/ (cur = None /\ rq_change rq = ChDelete).

Lemma items_of_inj (cur : option Page) a b :
  items_of cur a -> items_of cur b -> a = b.
Proof.
  destruct cur as [p|]; cbn; [|congruence]. intros (H1 & _ & Ha) (H2 & _ & Hb). rewrite H1 in H2. clear H1.
  revert b H2 Hb. induction a as [|x a IH]; intros [|y b] H Hb; try done.
  rewrite !page_bytes_cons in H. unfold item_bytes in H. rewrite <- !app_assoc in H.
  inversion Ha; inversion Hb; subst. apply le_bytes_app_inj in H; [|by apply u16_lt..]. destruct H as [Hl H].
  apply app_inj_1 in H; [|unfold len in Hl; lia]. destruct H as [-> H]. f_equal. by apply IH.
Qed.

Definition event_for (l : Loc) (cur new : option Page) : StEvent :=
  match l, new with
  | ItemLoc m s, Some p => ItemizedPageUpdated m s (content_hash cfg cur) (get_hash cfg p)
  | ItemLoc m s, None => ItemizedPageDeleted m s (content_hash cfg cur)
  | PageLoc m s p, Some q => PaginatedPageUpdated m s p (content_hash cfg cur) (get_hash cfg q)
  | PageLoc m s p, None => PaginatedPageDeleted m s p (content_hash cfg cur)
  end.

Lemma event_for_spec l cur new :
  event_loc (event_for l cur new) = l /\ event_hash (event_for l cur new) = content_hash cfg new /\
  event_prev (event_for l cur new) = content_hash cfg cur.
Proof. by destruct l, new. Qed.

Lemma perform_effect st rq st' :
  st_inv st -> loc_ok (rq_loc rq) -> change_ok (rq_loc rq) (rq_change rq) ->
  perform st rq = Ok st' <->
  exists cur new, read cfg st (rq_loc rq) = Ok cur /\ becomes cfg cur (rq_change rq) new /\
    ((cur = None /\ rq_change rq = ChDelete /\ st' = st) \/
     (rq_target rq = content_hash cfg cur /\ (rq_change rq = ChDelete -> cur <> None) /\
      st' = deposit (store st (rq_loc rq) new) (event_for (rq_loc rq) cur new))).
Proof.
  intros I Hl Hch. destruct rq as [l t ch]. cbn [rq_loc rq_change rq_target] in *.
  destruct (read_ok st l I Hl) as [cur Hcur].
  assert (Hw : forall p, cur = Some p -> page_wf l p) by (intros p ->; by eapply read_wf in Hcur as [? _]).
  unfold perform; cbn [rq_loc rq_change rq_target].
  destruct l as [m s|m s p], ch as [acts|d|]; try done.
  - (* items *)
    unfold update_itemized. change (get_itemized_page_for cfg st m s) with (read cfg st (ItemLoc m s)). rewrite Hcur.
    rewrite hash_default, wrap_next.
    destruct (items_cur (ItemLoc m s) cur) as (items & Hi & Hh); [eauto|done|].
    split.
    + destruct (N.eqb_spec t (content_hash cfg cur)) as [->|]; [|done].
      destruct (apply_item_actions cfg _ acts) as [p'|[]] eqn:E; try done.
      apply (apply_iff _ items) in E; [|done]. destruct E as (Hnd & Hr & Ha & _ & Hd & Hsize).
      cbn [pg_data]. intros H. destruct (pg_data p') as [|b0 d0] eqn:Ed.
      * inv_ok. exists cur, None. split; [done|]. symmetry in Hd. apply page_bytes_nil in Hd. split.
        { econstructor; eauto. }
        right. done.
      * inv_ok. exists cur, (Some {| pg_nonce := next_nonce cur; pg_data := b0 :: d0 |}). split; [done|].
        assert (Hio : items_of (Some {| pg_nonce := next_nonce cur; pg_data := b0 :: d0 |}) (kept items (deleted acts) ++ added acts)).
        { cbn. split; [done|]. split; [intros Hnil; rewrite Hnil in Hd; done|]. apply Forall_app. split; [|done].
          destruct Hh as (_ & Hf & _). apply Forall_forall. intros it Hin. apply kept_sub in Hin. by eapply Forall_forall in Hf. }
        split. { econstructor; [exact Hi|done|done|done|]. cbn. split; [done|]. by rewrite Hd. }
        right. done.
    + intros (cur' & new & [= <-] & Hb & [(_ & ? & _)|(-> & _ & ->)]); [done|].
      rewrite N.eqb_refl. inversion Hb as [| |l0 items0 new0 Hi0 Hnd Hr Hni Hnn]; subst.
      assert (items0 = items) as -> by (by eapply items_of_inj).
      assert (Ha : Forall (fun d => len d <= u16_max) (added acts)).
      { destruct new as [p|]; cbn in Hni; [destruct Hni as (_ & _ & Hf); by apply Forall_app in Hf as [_ ?]|].
        apply app_eq_nil in Hni as [_ ->]. constructor. }
      assert (E : apply_item_actions cfg (default pg_default cur) acts =
                Ok {| pg_nonce := 0; pg_data := page_bytes (kept items (deleted acts) ++ added acts) |}).
      { apply (apply_iff _ items); [done|]. repeat (split; [done|]).
        destruct new as [p|]; cbn in Hni; [destruct Hni as (Hd & _ & _); rewrite <- Hd; by destruct Hnn|]. rewrite Hni. apply N.le_0_l. }
      rewrite E. cbn [pg_data]. destruct new as [p|].
      * destruct Hni as (Hd & Hne & _), Hnn as [Hn _].
        destruct (page_bytes _) as [|b0 d0] eqn:Ep; [by apply page_bytes_nil in Ep|].
        assert (p = {| pg_nonce := next_nonce cur; pg_data := b0 :: d0 |}) as -> by (destruct p; cbn in *; congruence).
        done.
      * cbn in Hni. rewrite Hni. done.
  - unfold update_paginated. change (get_paginated_page_for cfg st m s p) with (read cfg st (PageLoc m s p)). rewrite Hcur.
    rewrite hash_default, wrap_next. split.
    + destruct (N.eqb_spec t (content_hash cfg cur)) as [->|]; [|done]. intros H. inv_ok.
      eexists cur, _. split; [done|]. split; [constructor|]. right. done.
    + intros (cur' & new & [= <-] & Hb & [(_ & ? & _)|(-> & _ & ->)]); [done|].
      rewrite N.eqb_refl. inversion Hb; subst. done.
  - unfold delete_paginated. change (get_paginated_page_for cfg st m s p) with (read cfg st (PageLoc m s p)). rewrite Hcur.
    destruct cur as [q|].
    + split.
      * destruct (N.eqb_spec t (get_hash cfg q)) as [->|]; [|done]. intros H. inv_ok.
        eexists _, None. split; [done|]. split; [constructor|]. right. done.
      * intros (cur' & new & [= <-] & Hb & [(? & ? & _)|(-> & _ & ->)]); [done|].
        cbn [content_hash]. rewrite N.eqb_refl. inversion Hb; subst. done.
    + split.
      * intros H. inv_ok. eexists _, None. split; [done|]. split; [constructor|]. by left.
      * intros (cur' & new & [= <-] & Hb & [(? & ? & ->)|(_ & Hne & _)]); [done|]. by specialize (Hne eq_refl).
Qed.

Lemma request_ok env c rq :
  env_ok env -> call_ok cfg c = true -> request env c = Some rq -> loc_ok (rq_loc rq) /\ change_ok (rq_loc rq) (rq_change rq).
Proof.
  intros He Hc Hr.
  assert (Hacts : forall l, actions_ok cfg l = true -> Forall (fun d => Forall (fun b => b < 256) d) (added l)).
  { intros l H. unfold actions_ok in H. apply andb_prop in H as [_ H]. rewrite forallb_forall in H.
    apply Forall_forall. intros d Hd. unfold added in Hd. apply elem_of_list_omap in Hd as ([d'|] & Ha & [= <-]).
    apply elem_of_list_In, H in Ha. cbn in Ha. unfold bytes_ok in Ha. apply andb_prop in Ha as [_ Ha].
    rewrite forallb_forall in Ha. apply Forall_forall. intros b Hb. apply elem_of_list_In, Ha in Hb. unfold u8_max in Hb. lia. }
  assert (Hbytes : forall mx d, bytes_ok mx d = true -> len d <= mx /\ Forall (fun b => b < 256) d).
  { intros mx d H. unfold bytes_ok in H. apply andb_prop in H as [Hl H]. split; [lia|]. rewrite forallb_forall in H.
    apply Forall_forall. intros b Hb. apply elem_of_list_In, H in Hb. unfold u8_max in Hb. lia. }
  assert (Hkey : forall k m, ms_keys (v_msa env) !! k = Some m -> m <= u64_max) by (intros k m H; by apply (He k m)).
  destruct c; cbn in Hc, Hr; repeat (apply andb_prop in Hc as [Hc ?]);
    try (destruct (ms_keys (v_msa env) !! delegator_key) as [m|] eqn:E; [apply Hkey in E|done]);
    injection Hr as <-; cbn; (split; [repeat split; lia|]); auto.
Qed.

(** ** Steps *)
Lemma dispatch_effect env st o c st' :
  st_inv st -> env_ok env -> st_dispatch cfg env st o c = Ok st' ->
  exists rq cur new, request env c = Some rq /\ loc_ok (rq_loc rq) /\ change_ok (rq_loc rq) (rq_change rq) /\
    rq_page_ok rq /\ allowed env o c rq /\
    read cfg st (rq_loc rq) = Ok cur /\ becomes cfg cur (rq_change rq) new /\
    ((cur = None /\ rq_change rq = ChDelete /\ st' = st) \/
     (rq_target rq = content_hash cfg cur /\ (rq_change rq = ChDelete -> cur <> None) /\
      st' = deposit (store st (rq_loc rq) new) (event_for (rq_loc rq) cur new))).
Proof.
  intros I He H. apply dispatch_iff in H as (Hc & rq & Hrq & Hp & Ha & Hper).
  destruct (request_ok _ _ _ He Hc Hrq) as [Hl Hch].
  apply perform_effect in Hper as (cur & new & Hr & Hb & Hcase); [|done..].
  exists rq, cur, new. done.
Qed.

Lemma cur_wf st l cur : st_inv st -> loc_ok l -> read cfg st l = Ok cur -> forall p, cur = Some p -> page_wf l p.
Proof. intros I Hl Hr p ->. by eapply read_wf in Hr as [? _]. Qed.

Lemma dispatch_inv env st o c st' : st_inv st -> env_ok env -> st_dispatch cfg env st o c = Ok st' -> st_inv st'.
Proof.
  intros I He H. apply dispatch_effect in H as (rq & cur & new & Hrq & Hl & Hch & Hp & _ & Hr & Hb & Hcase); [|done..].
  destruct Hcase as [(_ & _ & ->)|(_ & _ & ->)]; [done|].
  assert (Hi : st_inv (store st (rq_loc rq) new)); [|intros r k v; rewrite get_deposit; apply Hi].
  apply store_inv; [done|done|by destruct rq as [[] ? ?]|]. eapply becomes_wf; [|done|done]. by eapply cur_wf.
Qed.

Lemma run_inv_from h : forall st, st_inv st -> envs_ok h -> st_inv (st_run cfg st h).
Proof.
  induction h as [|x h IH]; intros st I He; [done|]. inversion He; subst. cbn. apply IH; [|done].
  unfold st_step. destruct (st_dispatch _ _ _ _ _) eqn:E; [|done]. by eapply dispatch_inv.
Qed.
Lemma run_inv h : envs_ok h -> st_inv (st_run cfg st_genesis h).
Proof. apply run_inv_from, genesis_inv. Qed.

(** Reads after a call. *)
Lemma dispatch_reads env st o c st' :
  st_inv st -> env_ok env -> st_dispatch cfg env st o c = Ok st' ->
  exists rq cur new, request env c = Some rq /\ loc_ok (rq_loc rq) /\ rq_page_ok rq /\ allowed env o c rq /\
    read cfg st (rq_loc rq) = Ok cur /\ hash_matches cur rq /\ becomes cfg cur (rq_change rq) new /\
    read cfg st' (rq_loc rq) = Ok new /\
    (forall l', loc_ok l' -> l' <> rq_loc rq -> read cfg st' l' = read cfg st l').
Proof.
  intros I He H. apply dispatch_effect in H as (rq & cur & new & Hrq & Hl & Hch & Hp & Ha & Hr & Hb & Hcase); [|done..].
  exists rq, cur, new. repeat (split; [done|]).
  destruct Hcase as [(-> & Hd & ->)|(Ht & _ & ->)].
  - split; [by right|]. split; [done|]. rewrite Hd in Hb. inversion Hb; subst. done.
  - split; [by left|]. split; [done|].
    change (read cfg (deposit (store st (rq_loc rq) new) (event_for (rq_loc rq) cur new))) with (read cfg (store st (rq_loc rq) new)).
    split; [|by intros; apply read_store_other].
    apply read_store_same. eapply becomes_wf; [|done|done]. by eapply cur_wf.
Qed.

(** Exact acceptance. *)
Lemma dispatch_ok_iff env st o c :
  st_inv st -> env_ok env ->
  is_ok (st_dispatch cfg env st o c) = true <->
  call_ok cfg c = true /\ exists rq cur new, request env c = Some rq /\ rq_page_ok rq /\ allowed env o c rq /\
    read cfg st (rq_loc rq) = Ok cur /\ hash_matches cur rq /\ becomes cfg cur (rq_change rq) new.
Proof.
  intros I He. split.
  - destruct (st_dispatch cfg env st o c) as [st'|] eqn:E; [|done]. intros _.
    pose proof E as E'. apply dispatch_iff in E' as [Hc _]. split; [done|].
    apply dispatch_reads in E as (rq & cur & new & ? & ? & ? & ? & ? & ? & ? & _); [|done..]. exists rq, cur, new. done.
  - intros (Hc & rq & cur & new & Hrq & Hp & Ha & Hr & Hm & Hb).
    destruct (request_ok _ _ _ He Hc Hrq) as [Hl Hch].
    assert (exists st', perform st rq = Ok st') as [st' Hper].
    { assert (Hd : (cur = None /\ rq_change rq = ChDelete) \/ ~ (cur = None /\ rq_change rq = ChDelete)).
      { destruct cur, (rq_change rq); auto; right; by intros [? ?]. }
      destruct Hd as [[-> Hd]|Hn].
      - exists st. apply perform_effect; [done..|]. exists None, new. split; [done|]. split; [done|]. by left.
      - destruct Hm as [Hm|Hm]; [|done].
        exists (deposit (store st (rq_loc rq) new) (event_for (rq_loc rq) cur new)). apply perform_effect; [done..|].
        exists cur, new. split; [done|]. split; [done|]. right.
        split; [done|]. split; [|done]. intros Hd ->. by apply Hn. }
    assert (st_dispatch cfg env st o c = Ok st') as ->; [|done]. apply dispatch_iff. split; [done|]. exists rq. done.
Qed.

End ok.
End st.
