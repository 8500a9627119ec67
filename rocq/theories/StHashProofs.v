(** What the content hash of the runtime (32 bits of XXH64) does and does not
    protect. *)
From Verif Require Import Prelude Scale ScaleDec CommonTypes SigModel MsaModel MsaSpec XxHash XxProofs
  StModel StSpec StProofs StMoreProofs StPayloadProofs StFinal.

Lemma runtime_key_hash blake verify : key_hash_ok (st_runtime blake verify).
Proof. intros a b Ha Hb. cbn. unfold u16_max in *. apply twox_128_schema_inj; lia. Qed.

Definition filler (n : nat) : nat := (31 - (n + 1) mod 32)%nat.
Lemma filler_ok n : ((n + 2 + filler n) mod 32)%nat = 0%nat /\ (filler n <= 31)%nat.
Proof.
  unfold filler. pose proof (Nat.mod_upper_bound (n + 1) 32 ltac:(lia)) as Hm. split; [|lia].
  pose proof (Nat.div_mod (n + 1) 32 ltac:(lia)) as Hd.
  replace (n + 2 + (31 - (n + 1) mod 32))%nat with (0 + (S ((n + 1) / 32)) * 32)%nat by lia.
  by rewrite Nat.mod_add.
Qed.

Lemma hash_forced blake verify n text hash :
  hash <= u32_max -> exists more, len more <= 39 /\ Forall (fun b => b < 256) more /\
    get_hash (st_runtime blake verify) {| pg_nonce := n; pg_data := text ++ more |} = hash.
Proof.
  intros Hh. destruct (filler_ok (length text)) as [Hf1 Hf2].
  destruct (xxh64_forced 0 (enc_u16 n ++ text ++ replicate (filler (length text)) 0) (hash * 4294967296)) as (w & Hw & Hb & E).
  { rewrite !app_length, replicate_length. change (length (enc_u16 n)) with 2%nat.
    by replace (2 + (length text + filler (length text)))%nat with (length text + 2 + filler (length text))%nat by lia. }
  { unfold u32_max in Hh. unfold W. lia. }
  exists (replicate (filler (length text)) 0 ++ w). split.
  { unfold len. rewrite app_length, replicate_length, Hw. lia. }
  split. { apply Forall_app. split; [|done]. by apply Forall_replicate. }
  unfold get_hash. cbn [pg_data pg_nonce f_page st_runtime].
  destruct (text ++ replicate (filler (length text)) 0 ++ w) as [|y l] eqn:El.
  { apply app_nil in El as [_ El]. apply app_nil in El as [_ ->]. done. }
  rewrite <- El. rewrite <- !app_assoc in E. rewrite E. by apply N.div_mul.
Qed.

Section runtime.
Context (blake : list N -> list N) (verify : N -> N -> list N -> bool) (Hblake : blake_ok blake).
Notation R := (st_runtime blake verify).

Lemma runtime_ok : sizes_ok R /\ hashes_ok R.
Proof. split; [apply runtime_sizes|by apply runtime_hashes]. Qed.

Lemma upsert_other h env o m s p target data data' st' :
  envs_ok h -> env_ok env ->
  st_dispatch R env (st_run R st_genesis h) o (UpsertPage m s p target data) = Ok st' ->
  len data' <= 1024 -> Forall (fun b => b < 256) data' ->
  exists st2 cur, read R (st_run R st_genesis h) (PageLoc m s p) = Ok cur /\
    st_dispatch R env (st_run R st_genesis h) o (UpsertPage m s p target data') = Ok st2 /\
    read R st2 (PageLoc m s p) = Ok (Some {| pg_nonce := next_nonce cur; pg_data := data' |}).
Proof.
  intros Hh He H Hl Hb. destruct runtime_ok as [Hs Hk].
  assert (Ha : is_ok (st_dispatch R env (st_run R st_genesis h) o (UpsertPage m s p target data)) = true) by (by rewrite H).
  apply accepted_lemma in Ha as (Hc & rq & cur & new & Hrq & Hpg & Hp & Hr & Hx & Hbc); [|done..].
  cbn in Hrq. injection Hrq as <-.
  assert (Ha : is_ok (st_dispatch R env (st_run R st_genesis h) o (UpsertPage m s p target data')) = true).
  { apply accepted_lemma; [done..|]. split.
    - cbn in Hc |- *. apply andb_true_iff in Hc as [Hc _]. rewrite Hc. cbn. unfold bytes_ok. apply andb_true_iff. split; [by apply N.leb_le|].
      apply forallb_forall. intros b Hin. apply N.leb_le. rewrite Forall_forall in Hb. unfold u8_max.
      assert (b < 256) by (apply Hb, elem_of_list_In, Hin). lia.
    - eexists _, cur, _. split; [reflexivity|]. split; [exact Hpg|]. split; [exact Hp|]. split; [exact Hr|]. split; [|constructor].
      destruct Hx as [Hx|[_ Hx]]; [by left|done]. }
  destruct (st_dispatch R env (st_run R st_genesis h) o (UpsertPage m s p target data')) as [st2|] eqn:E; [|done].
  exists st2, cur. split; [exact Hr|]. split; [done|].
  apply effect_lemma in E as (rq & cur' & new' & Hrq & Hr' & _ & Hbc' & Hn); [|done..]. cbn in Hrq. injection Hrq as <-.
  cbn [rq_loc rq_change] in *. rewrite Hr in Hr'. injection Hr' as <-. inversion Hbc'; subst. exact Hn.
Qed.

Lemma chosen_hash_lemma h env o m s p target data st' text hash :
  envs_ok h -> env_ok env ->
  st_dispatch R env (st_run R st_genesis h) o (UpsertPage m s p target data) = Ok st' ->
  len text <= 985 -> Forall (fun b => b < 256) text -> hash <= u32_max ->
  exists more st2 page,
    st_dispatch R env (st_run R st_genesis h) o (UpsertPage m s p target (text ++ more)) = Ok st2 /\
    read R st2 (PageLoc m s p) = Ok (Some page) /\ pg_data page = text ++ more /\ content_hash R (Some page) = hash.
Proof.
  intros Hh He H Hl Hb Hx. destruct (upsert_other h env o m s p target data [] st' Hh He H) as (_ & cur & Hcur & _); [done|constructor|].
  destruct (hash_forced blake verify (next_nonce cur) text hash Hx) as (more & Hm & Hmb & E).
  destruct (upsert_other h env o m s p target data (text ++ more) st' Hh He H) as (st2 & cur' & Hcur' & Hd & Hr).
  { unfold len in *. rewrite app_length. lia. } { by apply Forall_app. }
  rewrite Hcur in Hcur'. injection Hcur' as <-. exists more, st2. eexists. split; [exact Hd|]. split; [exact Hr|]. split; [done|exact E].
Qed.

Lemma target_u32 env c rq : call_ok R c = true -> request env c = Some rq -> rq_target rq <= u32_max.
Proof.
  intros Hc Hr. destruct c; cbn in Hc, Hr; rewrite ?andb_true_iff, ?N.leb_le in Hc;
    try (destruct (ms_keys (v_msa env) !! _); [|done]); injection Hr as <-; cbn; tauto.
Qed.

Lemma replay_forced_lemma h0 h env env' o o' c rq m s p target data st' :
  envs_ok h0 -> envs_ok h -> env_ok env -> env_ok env' ->
  request env' c = Some rq -> rq_loc rq = PageLoc m s p ->
  is_ok (st_dispatch R env' (st_run R st_genesis h0) o' c) = true ->
  st_dispatch R env (st_run R st_genesis h) o (UpsertPage m s p target data) = Ok st' ->
  exists data' st2,
    st_dispatch R env (st_run R st_genesis h) o (UpsertPage m s p target data') = Ok st2 /\
    is_ok (st_dispatch R env' st2 o' c) = true.
Proof.
  intros Hh0 Hh He He' Hrq Hloc Hacc H. destruct runtime_ok as [Hs Hk].
  apply accepted_lemma in Hacc as (Hc & rq' & cur0 & new0 & Hrq' & Hpg & Hp & Hr0 & Hx0 & Hb0); [|done..].
  rewrite Hrq in Hrq'. injection Hrq' as <-.
  destruct (chosen_hash_lemma h env o m s p target data st' [] (rq_target rq) Hh He H) as (more & st2 & page & Hd & Hr & Hdat & Hhash).
  { done. } { constructor. } { eapply target_u32; eassumption. }
  exists ([] ++ more), st2. split; [exact Hd|].
  assert (E : st2 = st_run R st_genesis (h ++ [{| x_env := env; x_origin := o; x_call := UpsertPage m s p target ([] ++ more) |}])).
  { unfold st_run. rewrite fold_left_app. cbn [fold_left]. unfold st_step at 1. cbn [x_env x_origin x_call].
    change (fold_left (st_step R) h st_genesis) with (st_run R st_genesis h). rewrite Hd. done. }
  rewrite E. apply accepted_lemma; [done|done| |done|].
  { apply Forall_app. split; [exact Hh|]. by constructor. }
  split; [exact Hc|]. rewrite Hloc in *.
  assert (exists new, becomes R (Some page) (rq_change rq) new) as [new Hnew].
  { clear -Hb0 Hrq Hloc. destruct (rq_change rq) eqn:Ech; [|eexists; constructor..]. exfalso.
    destruct c; cbn in Hrq; try (destruct (ms_keys (v_msa env') !! _); [|done]); injection Hrq as <-; cbn in Hloc, Ech; done. }
  exists rq, (Some page), new. rewrite Hloc. split; [exact Hrq|]. split; [exact Hpg|]. split; [exact Hp|].
  split; [by rewrite <- E|]. split; [left; by rewrite Hhash|exact Hnew].
Qed.
End runtime.

Lemma seen_only_lemma cfg h env o c rq p q :
  sizes_ok cfg -> hashes_ok cfg -> envs_ok h -> env_ok env ->
  request env c = Some rq -> rq_target rq = content_hash cfg (Some p) ->
  read cfg (st_run cfg st_genesis h) (rq_loc rq) = Ok (Some q) ->
  is_ok (st_dispatch cfg env (st_run cfg st_genesis h) o c) = true ->
  pg_nonce p <= u16_max -> pg_nonce q <= u16_max -> pg_data p <> [] -> pg_data q <> [] ->
  (let a := enc_u16 (pg_nonce p) ++ pg_data p in let b := enc_u16 (pg_nonce q) ++ pg_data q in
   f_page cfg a / 4294967296 = f_page cfg b / 4294967296 -> a = b) ->
  q = p.
Proof.
  intros Hs Hk Hh He Hrq Ht Hr Ha Hp Hq Hdp Hdq Hnc.
  destruct (decide (rq_target rq = content_hash cfg (Some q))) as [E|E].
  - symmetry. eapply hash_covers_lemma; try eassumption. cbn in *. congruence.
  - destruct (stale_lemma cfg h env o c rq q) as [Hf _]; try done. by rewrite Hf in Ha.
Qed.

Lemma kept_none items : kept items [] = items.
Proof.
  unfold kept. rewrite <- (numbered_snd 0 items) at 2. f_equal.
  induction (numbered 0 items) as [|x l IH]; [done|]. rewrite filter_cons_True by apply not_elem_of_nil. by rewrite IH.
Qed.

Section items.
Context (blake : list N -> list N) (verify : N -> N -> list N -> bool) (Hblake : blake_ok blake).
Notation R := (st_runtime blake verify).

Definition data_of (cur : option Page) : list N := match cur with Some p => pg_data p | None => [] end.

Lemma chosen_item_hash_lemma h env o m s target d st' hash :
  envs_ok h -> env_ok env ->
  st_dispatch R env (st_run R st_genesis h) o (ApplyItemActions m s target [Add d]) = Ok st' ->
  39 <= len d -> hash <= u32_max ->
  exists it st2 page, len it <= 39 /\
    st_dispatch R env (st_run R st_genesis h) o (ApplyItemActions m s target [Add it]) = Ok st2 /\
    read R st2 (ItemLoc m s) = Ok (Some page) /\ content_hash R (Some page) = hash.
Proof.
  intros Hh He H Hd Hx. destruct (runtime_ok blake verify Hblake) as [Hs Hk].
  assert (Ha : is_ok (st_dispatch R env (st_run R st_genesis h) o (ApplyItemActions m s target [Add d])) = true) by (by rewrite H).
  apply accepted_lemma in Ha as (Hc & rq & cur & new & Hrq & Hpg & Hp & Hr & Hex & Hbc); [|done..].
  cbn in Hrq. injection Hrq as <-. cbn [rq_loc rq_change rq_target] in *.
  inversion Hbc as [| |l items new' Hit Hnd Hrng Hnew Hlen]; subst. cbn [deleted added omap list_omap] in *. rewrite kept_none in Hnew.
  assert (Hcur : data_of cur = page_bytes items).
  { destruct cur; cbn in Hit |- *; [by destruct Hit|by subst]. }
  set (pre := data_of cur).
  set (f := filler (length pre + 2)). destruct (filler_ok (length pre + 2)) as [Hf1 Hf2]. fold f in Hf1, Hf2.
  destruct (xxh64_forced 0 (enc_u16 (next_nonce cur) ++ pre ++ enc_u16 (N.of_nat (f + 8)) ++ replicate f 0) (hash * 4294967296)) as (w & Hw & Hb & E).
  { rewrite !app_length, replicate_length. change (length (enc_u16 (next_nonce cur))) with 2%nat.
    change (length (enc_u16 (N.of_nat (f + 8)))) with 2%nat.
    by replace (2 + (length pre + (2 + f)))%nat with (length pre + 2 + 2 + f)%nat by lia. }
  { unfold u32_max in Hx. unfold W. lia. }
  set (it := replicate f 0 ++ w). assert (Hlit : length it = (f + 8)%nat) by (unfold it; rewrite app_length, replicate_length; lia).
  set (page := {| pg_nonce := next_nonce cur; pg_data := page_bytes (items ++ [it]) |}).
  assert (Hlit' : len it <= 39) by (unfold len; lia).
  assert (Hbytes : page_bytes (items ++ [it]) = pre ++ enc_u16 (N.of_nat (f + 8)) ++ it).
  { rewrite page_bytes_app. unfold pre. rewrite Hcur. f_equal.
    change (page_bytes [it]) with (item_bytes it ++ []). rewrite app_nil_r. unfold item_bytes, len. by rewrite Hlit. }
  assert (Hbound : len (pg_data page) <= f_max_item_page R).
  { destruct new as [q|].
    - destruct Hnew as [Hq _]. destruct Hlen as [_ Hlen]. rewrite Hq, page_bytes_app in Hlen. unfold page.
      cbn [pg_data]. rewrite page_bytes_app. unfold len in *. rewrite app_length in Hlen |- *. rewrite !page_bytes_cons, !app_length, !item_bytes_length in *. cbn [length page_bytes map concat] in *. lia.
    - cbn in Hnew. by apply app_eq_nil in Hnew as [_ ?]. }
  assert (Hbec : becomes R cur (ChItems [Add it]) (Some page)).
  { eapply becomes_items; cbn [deleted added omap list_omap]; [exact Hit|constructor|constructor| |].
    - rewrite kept_none. cbn. split; [done|]. split; [by destruct items|]. apply Forall_app. split.
      + destruct cur; cbn in Hit; [by destruct Hit as (_ & _ & ?)|subst; constructor].
      + constructor; [|constructor]. etransitivity; [exact Hlit'|done].
    - split; [done|exact Hbound]. }
  assert (Ha : is_ok (st_dispatch R env (st_run R st_genesis h) o (ApplyItemActions m s target [Add it])) = true).
  { apply accepted_lemma; [done..|]. split.
    - unfold call_ok in Hc |- *. apply andb_true_iff in Hc as [Hc _]. rewrite Hc. cbn [andb].
      assert (Hok : bytes_ok (f_max_blob R) it = true); [|unfold actions_ok; cbn [forallb action_ok]; by rewrite Hok].
      apply andb_true_iff. split; [apply N.leb_le; etransitivity; [exact Hlit'|done]|].
      apply forallb_forall. intros b Hin. apply N.leb_le. unfold u8_max. unfold it in Hin.
      apply in_app_iff in Hin as [Hin|Hin].
      + apply elem_of_list_In, elem_of_replicate in Hin as [-> _]. lia.
      + rewrite Forall_forall in Hb. assert (b < 256) by (apply Hb, elem_of_list_In, Hin). lia.
    - eexists _, cur, _. split; [reflexivity|]. split; [exact Hpg|]. split; [|split; [exact Hr|split; [|exact Hbec]]].
      + destruct Hp as [Hp1 (i & Hi1 & Hi2 & Hi3 & Hi4)]. split; [exact Hp1|]. exists i. split; [done|]. split; [done|]. split; [done|].
        intros _ (j & Hj). apply elem_of_list_singleton in Hj. done.
      + destruct Hex as [Hex|[_ Hex]]; [by left|done]. }
  destruct (st_dispatch R env (st_run R st_genesis h) o (ApplyItemActions m s target [Add it])) as [st2|] eqn:Ed; [|done].
  exists it, st2, page. split; [exact Hlit'|]. split; [done|].
  assert (Hhash : content_hash R (Some page) = hash).
  { cbn [content_hash]. unfold get_hash. cbn [page pg_data pg_nonce f_page st_runtime]. rewrite Hbytes.
    destruct (pre ++ enc_u16 (N.of_nat (f + 8)) ++ it) as [|y l] eqn:El; [by destruct pre|].
    rewrite <- El. unfold it. rewrite <- !app_assoc in E. rewrite E. by apply N.div_mul. }
  split; [|exact Hhash].
  apply effect_lemma in Ed as (rq & cur' & new' & Hrq & Hr' & _ & Hbc' & Hn); [|done..]. cbn in Hrq. injection Hrq as <-.
  cbn [rq_loc rq_change] in *. rewrite Hr in Hr'. injection Hr' as <-.
  inversion Hbc' as [| |l items2 new2 Hit2 _ _ Hnew2 Hlen2]; subst. cbn [deleted added omap list_omap] in Hnew2. rewrite kept_none in Hnew2.
  assert (items2 = items) as ->.
  { eapply items_of_inj; eassumption. }
  rewrite Hn. f_equal. destruct new' as [q|].
  - f_equal. destruct Hnew2 as [Hq _], Hlen2 as [Hqn _]. unfold page. destruct q; cbn in *. by subst.
  - cbn in Hnew2. by apply app_eq_nil in Hnew2 as [_ ?].
Qed.
End items.
