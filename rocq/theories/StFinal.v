(** The stateful-storage properties in the form in which they are stated. *)
From Verif Require Import Prelude Scale ScaleDec CommonTypes SigModel MsaModel MsaSpec XxHash StModel StSpec StProofs StMoreProofs StPayloadProofs.

Lemma parse_iff_lemma data l :
  Forall (fun b => b < 256) data ->
  try_parse false data = Ok l <->
  exists items, data = page_bytes items /\ l = numbered 0 items /\
    Forall (fun it => len it <= u16_max) items /\ len items <= u16_max.
Proof.
  intros Hb.
  assert (Hsh : forall k items, map (shown false) (numbered k items) = numbered k items).
  { intros k items. revert k. induction items as [|it items IH]; intros k; [done|]. cbn [numbered map]. by rewrite IH. }
  split.
  - intros H. apply parse_sound in H as (items & -> & -> & Hf & Hl); [|done]. exists items. rewrite Hsh. split; [done|]. split; [done|].
    split; [done|]. destruct items; [rewrite len_nil; unfold u16_max; lia|]. specialize (Hl ltac:(done)). lia.
  - intros (items & -> & -> & Hf & Hl). unfold try_parse. rewrite parse_complete; [by rewrite Hsh|done|lia|done].
Qed.

Lemma page_bytes_inj_lemma a b :
  Forall (fun it => len it <= u16_max) a -> Forall (fun it => len it <= u16_max) b -> page_bytes a = page_bytes b -> a = b.
Proof.
  intros Ha Hb H. destruct a as [|x a], b as [|y b]; [done|symmetry in H; by apply page_bytes_nil in H|by apply page_bytes_nil in H|].
  apply (items_of_inj (Some {| pg_nonce := 0; pg_data := page_bytes (x :: a) |})); cbn [items_of pg_data]; done.
Qed.

Lemma actions_exact_lemma cfg p items actions data :
  pg_data p = page_bytes items -> Forall (fun it => len it <= u16_max) items -> len items <= u16_max ->
  apply_item_actions cfg p actions = Ok {| pg_nonce := 0; pg_data := data |} <->
  NoDup (deleted actions) /\ Forall (fun i => i < len items) (deleted actions) /\
  Forall (fun d => len d <= u16_max) (added actions) /\
  data = page_bytes (kept items (deleted actions) ++ added actions) /\ len data <= f_max_item_page cfg.
Proof.
  intros Hd Hf Hl. rewrite (apply_iff cfg p items) by done. cbn [pg_nonce pg_data]. split.
  - intros (? & ? & ? & _ & -> & ?). done.
  - intros (? & ? & ? & -> & ?). done.
Qed.

Section final.
Variable cfg : StCfg.

Lemma limits_lemma h l :
  sizes_ok cfg -> hashes_ok cfg -> envs_ok h -> loc_ok l ->
  exists cur, read cfg (st_run cfg st_genesis h) l = Ok cur /\
    forall p, cur = Some p -> len (pg_data p) <= max_size cfg l /\ page_id_ok cfg l.
Proof.
  intros Hs Hh He Hl. pose proof (run_inv cfg Hs Hh h He) as I. destruct (read_ok cfg Hs Hh _ l I Hl) as [cur Hr].
  exists cur. split; [done|]. intros p ->. apply read_wf in Hr as [(_ & Hlen & _) Hp]; [|done..]. by destruct l.
Qed.

Lemma entries_lemma h root key value :
  sizes_ok cfg -> hashes_ok cfg -> envs_ok h ->
  get_raw (st_run cfg st_genesis h) root key = Some value ->
  exists l p, loc_ok l /\ value = enc_page p /\ read cfg (st_run cfg st_genesis h) l = Ok (Some p).
Proof.
  intros Hs Hh He H. pose proof (run_inv cfg Hs Hh h He) as I.
  destruct (I _ _ _ H) as (l & p & Hl & Hp & -> & -> & -> & Hw). exists l, p. split; [done|]. split; [done|].
  rewrite read_eq. unfold try_read. rewrite H. rewrite dec_enc_page; [done|apply Hw|apply Hw|by apply max_of_u32].
Qed.

Lemma accepted_lemma h env o c :
  sizes_ok cfg -> hashes_ok cfg -> envs_ok h -> env_ok env ->
  is_ok (st_dispatch cfg env (st_run cfg st_genesis h) o c) = true <->
  call_ok cfg c = true /\
  exists rq cur new, request env c = Some rq /\ page_id_ok cfg (rq_loc rq) /\ permitted cfg env o c rq /\
    read cfg (st_run cfg st_genesis h) (rq_loc rq) = Ok cur /\ expects cfg cur rq /\ becomes cfg cur (rq_change rq) new.
Proof. intros Hs Hh He Henv. apply call_ok_iff; try done. by apply run_inv. Qed.

Lemma effect_lemma h env o c st' :
  sizes_ok cfg -> hashes_ok cfg -> envs_ok h -> env_ok env ->
  st_dispatch cfg env (st_run cfg st_genesis h) o c = Ok st' ->
  exists rq cur new, request env c = Some rq /\
    read cfg (st_run cfg st_genesis h) (rq_loc rq) = Ok cur /\ expects cfg cur rq /\
    becomes cfg cur (rq_change rq) new /\ read cfg st' (rq_loc rq) = Ok new.
Proof.
  intros Hs Hh He Henv H. apply call_effect in H as (rq & cur & new & ? & ? & ? & ? & ? & ? & ? & ? & ?); [|done|done|by apply run_inv|done].
  exists rq, cur, new. done.
Qed.

Lemma stale_lemma h env o c rq p :
  sizes_ok cfg -> hashes_ok cfg -> envs_ok h -> env_ok env ->
  request env c = Some rq -> read cfg (st_run cfg st_genesis h) (rq_loc rq) = Ok (Some p) ->
  rq_target rq <> content_hash cfg (Some p) ->
  is_ok (st_dispatch cfg env (st_run cfg st_genesis h) o c) = false /\
  st_step cfg (st_run cfg st_genesis h) {| x_env := env; x_origin := o; x_call := c |} = st_run cfg st_genesis h.
Proof.
  intros Hs Hh He Henv Hrq Hr Hne.
  assert (Hf : is_ok (st_dispatch cfg env (st_run cfg st_genesis h) o c) = false).
  { destruct (is_ok _) eqn:E; [|done]. exfalso. apply accepted_lemma in E; [|done..].
    destruct E as (_ & rq' & cur & new & ? & _ & _ & Hr' & Hex & _). assert (rq' = rq) as -> by congruence.
    assert (cur = Some p) as -> by congruence. by destruct Hex as [?|[? _]]. }
  split; [done|]. unfold st_step. cbn [x_env x_origin x_call]. by destruct (st_dispatch _ _ _ _ _).
Qed.

Lemma out_of_range_lemma h env o owner schema target actions items i cur :
  sizes_ok cfg -> hashes_ok cfg -> envs_ok h -> env_ok env -> owner <= u64_max -> schema <= u16_max ->
  read cfg (st_run cfg st_genesis h) (ItemLoc owner schema) = Ok cur -> items_of cur items ->
  Delete i ∈ actions -> len items <= i ->
  is_ok (st_dispatch cfg env (st_run cfg st_genesis h) o (ApplyItemActions owner schema target actions)) = false.
Proof.
  intros Hs Hh He Henv Ho Hsc Hr Hi Hin Hle. destruct (is_ok _) eqn:E; [|done]. exfalso.
  apply accepted_lemma in E as (_ & rq & cur' & new & Hrq & _ & _ & Hr' & _ & Hb); [|done..].
  cbn in Hrq. injection Hrq as <-. cbn [rq_loc rq_change] in *. assert (cur' = cur) as -> by congruence.
  inversion Hb as [| |l items' new' Hi' _ Hrange _ _]; subst. assert (items' = items) as -> by (by eapply items_of_inj).
  assert (i ∈ deleted actions) by (unfold deleted; apply elem_of_list_omap; by exists (Delete i)).
  eapply Forall_forall in Hrange; [|done]. cbn in Hrange. lia.
Qed.

Lemma isolated_lemma h h' l :
  sizes_ok cfg -> hashes_ok cfg -> envs_ok h -> envs_ok h' -> loc_ok l ->
  Forall (fun x => forall rq, request (x_env x) (x_call x) = Some rq -> rq_loc rq <> l) h' ->
  read cfg (st_run cfg st_genesis (h ++ h')) l = read cfg (st_run cfg st_genesis h) l.
Proof. intros Hs Hh He He' Hl Hn. rewrite run_app. apply untouched; try done. by apply run_inv. Qed.

Lemma append_only_lemma h h' env m s hash nonce items :
  sizes_ok cfg -> hashes_ok cfg -> envs_ok h -> envs_ok h' -> m <= u64_max -> s <= u16_max ->
  append_only_in s h' ->
  get_itemized_storage cfg env (st_run cfg st_genesis h) m s = Ok (hash, nonce, numbered 0 items) ->
  exists hash' nonce' more,
    get_itemized_storage cfg env (st_run cfg st_genesis (h ++ h')) m s = Ok (hash', nonce', numbered 0 (items ++ more)).
Proof.
  intros Hs Hh He He' Hm Hsc Ha H. pose proof (run_inv cfg Hs Hh h He) as I.
  assert (Hl : loc_ok (ItemLoc m s)) by done.
  apply itemized_storage_iff in H as (Hsch & cur & Hr & Hi & _); [|done..].
  rewrite run_app. destruct (append_items cfg Hs Hh h' (st_run cfg st_genesis h) m s cur items) as (cur' & more & Hr' & Hi'); try done.
  eexists _, _, more. apply itemized_storage_iff; [done|done|by apply run_inv_from|done|]. split; [done|]. exists cur'. done.
Qed.

Lemma change_lemma h x l :
  sizes_ok cfg -> hashes_ok cfg -> envs_ok h -> env_ok (x_env x) -> loc_ok l ->
  read cfg (st_run cfg st_genesis (h ++ [x])) l <> read cfg (st_run cfg st_genesis h) l ->
  exists rq, rq_loc rq = l /\ permitted cfg (x_env x) (x_origin x) (x_call x) rq.
Proof.
  intros Hs Hh He Hx Hl Hne. rewrite run_app in Hne. cbn in Hne.
  destruct (step_at cfg Hs Hh (st_run cfg st_genesis h) x l) as [?|(rq & cur & new & _ & Hloc & Hp & _)]; [by apply run_inv|done|done|done|].
  by exists rq.
Qed.

Lemma authorised_lemma h x l :
  sizes_ok cfg -> hashes_ok cfg -> envs_ok h -> env_ok (x_env x) -> loc_ok l ->
  read cfg (st_run cfg st_genesis (h ++ [x])) l <> read cfg (st_run cfg st_genesis h) l ->
  sent_by_owner (x_env x) (x_origin x) (loc_msa l) \/
  sent_by_grantee (x_env x) (x_origin x) (loc_msa l) (loc_schema l) \/
  owner_signed cfg (x_env x) (x_call x) (loc_msa l).
Proof.
  intros Hs Hh He Hx Hl Hne. destruct (change_lemma h x l) as (rq & <- & Hp); try done.
  unfold permitted in Hp. destruct (signature_of _); [tauto|]. tauto.
Qed.

Lemma signature_required_lemma h x l i :
  sizes_ok cfg -> hashes_ok cfg -> envs_ok h -> env_ok (x_env x) -> loc_ok l ->
  v_schema (x_env x) (loc_schema l) = Some i -> set_signature_required (si_settings i) = true ->
  read cfg (st_run cfg st_genesis (h ++ [x])) l <> read cfg (st_run cfg st_genesis h) l ->
  sent_by_owner (x_env x) (x_origin x) (loc_msa l) \/ owner_signed cfg (x_env x) (x_call x) (loc_msa l).
Proof.
  intros Hs Hh He Hx Hl Hi Hreq Hne. destruct (change_lemma h x l) as (rq & <- & Hp); try done.
  unfold permitted in Hp. destruct (signature_of _); [tauto|]. left.
  destruct Hp as (_ & i' & Hi' & _ & Hsig & _). assert (i' = i) as -> by congruence. auto.
Qed.

Lemma listing_exact_lemma h env m s r :
  sizes_ok cfg -> hashes_ok cfg -> key_hash_ok cfg -> envs_ok h -> m <= u64_max -> s <= u16_max ->
  get_paginated_storage cfg env (st_run cfg st_genesis h) m s = Ok r ->
  NoDup (map (fun e => e.1.1.1) r) /\
  forall p hash nonce data, (p, hash, nonce, data) ∈ r <->
    p <= u16_max /\ read cfg (st_run cfg st_genesis h) (PageLoc m s p) = Ok (Some {| pg_nonce := nonce; pg_data := data |}) /\
    hash = content_hash cfg (Some {| pg_nonce := nonce; pg_data := data |}).
Proof. intros Hs Hh Hk He Hm Hsc. apply listing_spec; try done. by apply run_inv. Qed.

Lemma items_exact_lemma h env m s hash nonce l :
  sizes_ok cfg -> hashes_ok cfg -> envs_ok h -> m <= u64_max -> s <= u16_max ->
  get_itemized_storage cfg env (st_run cfg st_genesis h) m s = Ok (hash, nonce, l) <->
  (exists i, v_schema env s = Some i /\ si_location i = Itemized) /\
  exists cur items, read cfg (st_run cfg st_genesis h) (ItemLoc m s) = Ok cur /\ items_of cur items /\ l = numbered 0 items /\
    hash = content_hash cfg cur /\ nonce = match cur with Some p => pg_nonce p | None => 0 end.
Proof.
  intros Hs Hh He Hm Hsc. pose proof (run_inv cfg Hs Hh h He) as I. assert (Hl : loc_ok (ItemLoc m s)) by done. split.
  - intros H. destruct (itemized_storage_form cfg Hs Hh _ _ _ _ _ I Hl H) as (a & b & items & [= -> -> ->]).
    apply itemized_storage_iff in H as (Hsch & cur & Hr & Hi & -> & ->); [|done..]. split; [done|]. exists cur, items. done.
  - intros (Hsch & cur & items & Hr & Hi & -> & -> & ->). apply itemized_storage_iff; [done..|]. split; [done|]. exists cur. done.
Qed.

Lemma announced_lemma h l :
  sizes_ok cfg -> hashes_ok cfg -> envs_ok h -> loc_ok l ->
  exists cur, read cfg (st_run cfg st_genesis h) l = Ok cur /\ announced (st_events (st_run cfg st_genesis h)) l = content_hash cfg cur.
Proof. intros Hs Hh He Hl. destruct (run_events cfg Hs Hh h He) as (_ & _ & H). by apply H. Qed.

Lemma chain_lemma h before e after :
  sizes_ok cfg -> hashes_ok cfg -> envs_ok h ->
  st_events (st_run cfg st_genesis h) = before ++ e :: after -> event_prev e = announced before (event_loc e).
Proof. intros Hs Hh He. destruct (run_events cfg Hs Hh h He) as (H & _ & _). apply H. Qed.

Lemma replay_lemma h x st2 h2 y rq :
  sizes_ok cfg -> hashes_ok cfg -> envs_ok h -> env_ok (x_env x) -> envs_ok h2 -> env_ok (x_env y) ->
  st_dispatch cfg (x_env x) (st_run cfg st_genesis h) (x_origin x) (x_call x) = Ok st2 ->
  x_call y = x_call x -> request (x_env x) (x_call x) = Some rq -> request (x_env y) (x_call y) = Some rq ->
  no_collision cfg (read cfg (st_run cfg st_genesis h) (rq_loc rq) :: pages_seen cfg st2 h2 (rq_loc rq)) ->
  Forall (fun r => ~ vacant r) (pages_seen cfg st2 h2 (rq_loc rq)) ->
  len h2 < 65535 ->
  is_ok (st_dispatch cfg (x_env y) (st_run cfg st2 h2) (x_origin y) (x_call y)) = false.
Proof. intros Hs Hh He Hx He2 Hy Hd _ Hrq Hrqy Hnc Hv Hl. apply (replay_rejected cfg Hs Hh (st_run cfg st_genesis h) x st2 h2 y rq); try done. by apply run_inv. Qed.

Lemma replay_same_lemma h x st2 h3 y rq :
  sizes_ok cfg -> hashes_ok cfg -> envs_ok h -> env_ok (x_env x) -> envs_ok h3 -> env_ok (x_env y) ->
  st_dispatch cfg (x_env x) (st_run cfg st_genesis h) (x_origin x) (x_call x) = Ok st2 ->
  x_call y = x_call x -> request (x_env x) (x_call x) = Some rq -> request (x_env y) (x_call y) = Some rq ->
  no_collision cfg [read cfg (st_run cfg st_genesis h) (rq_loc rq); read cfg (st_run cfg st_genesis h3) (rq_loc rq)] ->
  is_ok (st_dispatch cfg (x_env y) (st_run cfg st_genesis h3) (x_origin y) (x_call y)) = true ->
  read cfg (st_run cfg st_genesis h3) (rq_loc rq) = read cfg (st_run cfg st_genesis h) (rq_loc rq) \/
  (vacant (read cfg (st_run cfg st_genesis h) (rq_loc rq)) /\ vacant (read cfg (st_run cfg st_genesis h3) (rq_loc rq))) \/
  (rq_change rq = ChDelete /\ (read cfg (st_run cfg st_genesis h3) (rq_loc rq) = Ok None \/ read cfg (st_run cfg st_genesis h) (rq_loc rq) = Ok None)).
Proof. intros Hs Hh He Hx He2 Hy Hd _ Hrq Hrqy Hnc Hok. apply (replay_needs_same cfg Hs Hh (st_run cfg st_genesis h) x st2 _ y rq); try done; by apply run_inv. Qed.
End final.

Lemma runtime_lemma blake verify mcfg h env :
  blake_ok blake ->
  sizes_ok (st_runtime blake verify) /\ hashes_ok (st_runtime blake verify) /\
  (v_msa env = msa_run mcfg msa_genesis h -> env_ok env).
Proof.
  intros Hb. split; [apply runtime_sizes|]. split; [by apply runtime_hashes|]. apply reachable_env_ok.
Qed.

Lemma hash_covers_lemma cfg p q :
  pg_nonce p <= u16_max -> pg_nonce q <= u16_max -> pg_data p <> [] -> pg_data q <> [] ->
  (let a := enc_u16 (pg_nonce p) ++ pg_data p in let b := enc_u16 (pg_nonce q) ++ pg_data q in
   f_page cfg a / 4294967296 = f_page cfg b / 4294967296 -> a = b) ->
  get_hash cfg p = get_hash cfg q -> p = q.
Proof.
  destruct p as [n d], q as [n' d']. cbn. intros Hn Hn' Hd Hd' Hinj H. unfold get_hash in H. cbn [pg_data pg_nonce] in H.
  destruct d as [|x d]; [done|]. destruct d' as [|x' d']; [done|]. apply Hinj in H.
  assert (E : dec_u16 (enc_u16 n ++ x :: d) = dec_u16 (enc_u16 n' ++ x' :: d')) by (f_equal; exact H).
  rewrite !dec_u16_enc in E by (unfold u16_max in *; lia). injection E. intros -> -> ->. done.
Qed.
