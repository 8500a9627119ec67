(** Proof of property C146. *)
From Verif Require Import Prelude Scale CommonTypes SigModel MsaModel CapModel TrModel StModel HModel ScModel MgModel FeeModel RtModel.
From Verif Require Import MsaSpec StSpec RtSpec RtMoreSpec RtProj RtRefs ErasureSpec.
From Verif Require StProofs StMoreProofs.

Section st.
Variable cfg : StCfg.
Hypothesis Hsz : sizes_ok cfg.
Hypothesis Hha : hashes_ok cfg.
Hypothesis Hact : 1 <= f_max_actions cfg.
Hypothesis Hpg : forall d, f_page cfg d <= u64_max.
Variable env : StEnv.
Hypothesis He : env_ok env.
Variable k : N.
Notation inv := (StProofs.st_inv cfg).

Fixpoint st_all (cs : list StCall) (st : StState) : option StState :=
  match cs with
  | [] => Some st
  | c :: cs => match st_dispatch cfg env st (Signed k) c with Ok st1 => st_all cs st1 | Err _ => None end
  end.
Lemma st_all_app a b st st' : st_all a st = Some st' -> st_all (a ++ b) st = st_all b st'.
Proof. revert st. induction a as [|c a IH]; cbn; intros st; [by intros [= ->]|]. destruct (st_dispatch _ _ _ _ _); [apply IH|done]. Qed.

Definition can (l : Loc) : bool :=
  match v_schema env (loc_schema l) with
  | Some i => bool_decide (si_location i = loc_kind l) && negb (set_append_only (si_settings i))
  | None => false
  end.
Lemma hash_small cur : content_hash cfg cur <= u32_max.
Proof.
  destruct cur as [p|]; cbn; [|unfold u32_max; lia]. unfold get_hash. destruct (pg_data p); [unfold u32_max; lia|].
  match goal with |- context [f_page cfg ?x] => pose proof (Hpg x) as H end. unfold u64_max, u32_max in *.
  apply N.lt_succ_r. apply N.div_lt_upper_bound; lia.
Qed.
Lemma kept_first (it : list N) items : kept (it :: items) [0] = items.
Proof.
  unfold kept. cbn [numbered]. rewrite filter_cons_False by (cbn; intros H; apply H; by left).
  assert (G : forall k l, 0 < k -> map snd (filter (fun x : N * list N => x.1 ∉ [0]) (numbered k l)) = l).
  { clear. intros k l. revert k. induction l as [|a l IH]; intros k Hk; [done|]. cbn [numbered].
    rewrite filter_cons_True by (cbn; intros H; apply elem_of_list_singleton in H; lia). cbn [map snd]. rewrite IH by lia. done. }
  apply G. lia.
Qed.

(** one call *)
Lemma one_call st c rq cur new : inv st -> call_ok cfg c = true -> signature_of c = None -> request env c = Some rq -> loc_ok (rq_loc rq) ->
  StProofs.rq_page_ok cfg rq -> controls (v_msa env) k (loc_msa (rq_loc rq)) -> can (rq_loc rq) = true ->
  read cfg st (rq_loc rq) = Ok cur -> rq_target rq = content_hash cfg cur -> becomes cfg cur (rq_change rq) new ->
  (forall new', becomes cfg cur (rq_change rq) new' -> new' = new) ->
  exists st', st_dispatch cfg env st (Signed k) c = Ok st' /\ inv st' /\ read cfg st' (rq_loc rq) = Ok new
    /\ forall l, loc_ok l -> l <> rq_loc rq -> read cfg st' l = read cfg st l.
Proof.
  intros I Hok Hsig Hrq Hl Hp Hc Hcan Hr Ht Hb Hdet.
  assert (A : is_ok (st_dispatch cfg env st (Signed k) c) = true).
  { apply StProofs.dispatch_ok_iff; [done..|]. split; [done|]. exists rq, cur, new. split; [done|]. split; [done|].
    split; [|split; [done|]; split; [by left|done]]. unfold StProofs.allowed. rewrite Hsig. exists k, (loc_msa (rq_loc rq)).
    split; [done|]. split; [done|]. split; [by left|]. unfold can in Hcan. destruct (v_schema env _) as [i|] eqn:Ei; [|done].
    exists i. split; [done|]. apply andb_prop in Hcan as [H1 H2]. apply bool_decide_eq_true in H1. split; [done|].
    split; [intros _; apply N.eqb_refl|]. intros E. by rewrite E in H2. }
  destruct (st_dispatch cfg env st (Signed k) c) as [st'|] eqn:E; [|done]. exists st'. split; [done|].
  split; [by eapply StProofs.dispatch_inv|].
  apply StProofs.dispatch_reads in E as (rq' & cur' & new' & Hrq' & _ & _ & _ & Hr' & _ & Hb' & Hn & Ho); [|done..].
  rewrite Hrq in Hrq'. injection Hrq' as <-. rewrite Hr in Hr'. injection Hr' as <-. rewrite (Hdet new' Hb') in Hn. done.
Qed.

Lemma erase_page st m x p : inv st -> loc_ok (PageLoc m x p) -> controls (v_msa env) k m -> can (PageLoc m x p) = true ->
  exists cs st', st_all cs st = Some st' /\ inv st' /\ read cfg st' (PageLoc m x p) = Ok None
    /\ forall l, loc_ok l -> l <> PageLoc m x p -> read cfg st' l = read cfg st l.
Proof.
  intros I Hl Hc Hcan. destruct (StProofs.read_ok cfg Hsz Hha st _ I Hl) as [cur Hr]. destruct cur as [pg|]; [|by exists [], st].
  pose proof (StProofs.read_wf cfg Hsz Hha st _ _ I Hl Hr) as [_ Hp].
  set (hash := content_hash cfg (Some pg)).
  destruct (one_call st (DeletePage m x p hash) {| rq_loc := PageLoc m x p; rq_target := hash; rq_change := ChDelete |} (Some pg) None) as (st' & E & H); try done.
  - cbn [call_ok]. destruct Hl as (H1 & H2 & H3). pose proof (hash_small (Some pg)) as H4. fold hash in H4.
    apply N.leb_le in H1, H2, H3, H4. by rewrite H1, H2, H3, H4.
  - constructor.
  - intros new' Hb. by inversion Hb.
  - exists [DeletePage m x p hash], st'. split; [|exact H]. cbn [st_all]. by rewrite E.
Qed.
Lemma erase_items m x items : forall st cur, inv st -> loc_ok (ItemLoc m x) -> controls (v_msa env) k m -> can (ItemLoc m x) = true ->
  read cfg st (ItemLoc m x) = Ok cur -> items_of cur items ->
  exists cs st', st_all cs st = Some st' /\ inv st' /\ read cfg st' (ItemLoc m x) = Ok None
    /\ forall l, loc_ok l -> l <> ItemLoc m x -> read cfg st' l = read cfg st l.
Proof.
  induction items as [|it items IH]; intros st cur I Hl Hc Hcan Hr Hit.
  { destruct cur as [p|]; [by destruct Hit as (_ & ? & _)|]. by exists [], st. }
  destruct cur as [p|]; [|done]. destruct Hit as (Hd & _ & Hf).
  set (hash := content_hash cfg (Some p)).
  set (new := match items with [] => None | _ => Some {| pg_nonce := next_nonce (Some p); pg_data := page_bytes items |} end).
  pose proof (StProofs.read_wf cfg Hsz Hha st _ _ I Hl Hr) as [(_ & Hlen & _) _].
  assert (Hnew : items_of new items).
  { unfold new. destruct items as [|i2 items]; [done|]. split; [done|]. split; [done|]. by inversion Hf. }
  assert (Hin : items_of (Some p) (it :: items)) by (by split).
  assert (Hk : kept (it :: items) (deleted [Delete 0]) ++ added [Delete 0] = items).
  { change (added [Delete 0]) with (@nil (list N)). change (deleted [Delete 0]) with [0]. by rewrite kept_first, app_nil_r. }
  destruct (one_call st (ApplyItemActions m x hash [Delete 0]) {| rq_loc := ItemLoc m x; rq_target := hash; rq_change := ChItems [Delete 0] |} (Some p) new)
    as (st1 & E & I1 & R1 & O1); try done.
  - cbn [call_ok]. destruct Hl as (H1 & H2). pose proof (hash_small (Some p)) as H4. fold hash in H4.
    apply N.leb_le in H1, H2, H4. rewrite H1, H2, H4. unfold actions_ok. change (len [Delete 0]) with 1. apply N.leb_le in Hact as ->. done.
  - econstructor; [exact Hin|apply NoDup_singleton| |by rewrite Hk|].
    + constructor; [|constructor]. unfold len. cbn [length]. lia.
    + unfold new. destruct items as [|i2 items]; [done|]. split; [done|]. cbn [pg_data]. rewrite Hd in Hlen. cbn [StProofs.max_of] in Hlen.
      rewrite StProofs.page_bytes_cons, len_app in Hlen. lia.
  - intros new' Hb. inversion Hb as [| |l0 items' n0 Hit' _ _ Hn Hm']; subst. assert (items' = it :: items) as -> by (by eapply StProofs.items_of_inj).
    rewrite Hk in Hn. unfold new. destruct new' as [q|]; cbn in Hn; [|by subst items]. destruct Hn as (Hq & Hne & _). destruct items; [done|].
    destruct Hm' as [Hm' _]. destruct q. cbn in *. by subst.
  - cbn [rq_loc] in *. destruct (IH st1 new I1 Hl Hc Hcan R1 Hnew) as (cs & st' & A & I' & R & O).
    exists (ApplyItemActions m x hash [Delete 0] :: cs), st'. split; [cbn [st_all]; by rewrite E|]. split; [done|]. split; [done|].
    intros l Hlo Hne. rewrite O by done. by apply O1.
Qed.
Lemma erase_loc st l : inv st -> loc_ok l -> controls (v_msa env) k (loc_msa l) -> can l = true ->
  exists cs st', st_all cs st = Some st' /\ inv st' /\ read cfg st' l = Ok None
    /\ forall l', loc_ok l' -> l' <> l -> read cfg st' l' = read cfg st l'.
Proof.
  intros I Hl Hc Hcan. destruct l as [m x|m x p]; [|by apply erase_page].
  destruct (StProofs.read_ok cfg Hsz Hha st _ I Hl) as [cur Hr]. destruct cur as [p|]; [|by eapply (erase_items m x [])].
  pose proof (StProofs.read_wf cfg Hsz Hha st _ _ I Hl Hr) as [(_ & _ & _ & items & Hit) _]. by eapply erase_items.
Qed.
Lemma erase_list ls : forall st, inv st -> Forall (fun l => loc_ok l /\ controls (v_msa env) k (loc_msa l) /\ can l = true) ls ->
  exists cs st', st_all cs st = Some st' /\ inv st' /\ (forall l, l ∈ ls -> read cfg st' l = Ok None)
    /\ forall l, loc_ok l -> l ∉ ls -> read cfg st' l = read cfg st l.
Proof.
  induction ls as [|l ls IH]; intros st I F.
  { exists [], st. split; [done|]. split; [done|]. split; [|done]. intros l Hl. by apply elem_of_nil in Hl. }
  inversion F as [|? ? (Hl & Hc & Hcan) F']; subst. destruct (erase_loc st l I Hl Hc Hcan) as (cs1 & st1 & A1 & I1 & R1 & O1).
  destruct (IH st1 I1 F') as (cs2 & st2 & A2 & I2 & R2 & O2). exists (cs1 ++ cs2), st2.
  split; [by rewrite (st_all_app _ _ _ _ A1)|]. split; [done|]. split.
  - intros l' Hin. destruct (decide (l' ∈ ls)) as [|Hn]; [by apply R2|]. apply elem_of_cons in Hin as [->|]; [|done]. by rewrite O2.
  - intros l' Hlo Hn. apply not_elem_of_cons in Hn as [Hne Hn]. rewrite O2 by done. by apply O1.
Qed.
End st.

Global Instance loc_ok_dec l : Decision (loc_ok l).
Proof. destruct l; cbn; apply _. Defined.
(** All locations of an MSA *)
Definition places (m : N) (a b : nat) : list Loc :=
  concat (map (fun x => ItemLoc m (N.of_nat x) :: map (fun p => PageLoc m (N.of_nat x) (N.of_nat p)) (seq 0 b)) (seq 0 a)).
Lemma places_spec m a b l : l ∈ places m a b <->
  loc_msa l = m /\ loc_schema l < N.of_nat a /\ match l with ItemLoc _ _ => True | PageLoc _ _ p => p < N.of_nat b end.
Proof.
  unfold places. rewrite elem_of_list_In, in_concat. split.
  - intros (y & Hy & Hin). apply in_map_iff in Hy as (x & <- & Hx). apply in_seq in Hx. destruct Hin as [<-|Hin]; [cbn; split; [done|]; split; [lia|done]|].
    apply in_map_iff in Hin as (p & <- & Hp). apply in_seq in Hp. cbn. split; [done|]. lia.
  - intros (<- & Hx & Hp). eexists. split; [apply in_map_iff; exists (N.to_nat (loc_schema l)); split; [done|apply in_seq; lia]|].
    destruct l as [m x|m x p]; cbn in *; rewrite N2Nat.id; [by left|]. right. apply in_map_iff. exists (N.to_nat p). rewrite N2Nat.id. split; [done|].
    apply in_seq. lia.
Qed.

Section rt.
Variable cfg : RtCfg.
Hypothesis Hsz : sizes_ok (r_st cfg).
Hypothesis Hha : hashes_ok (r_st cfg).
Hypothesis Hmg : g_max (r_mg cfg) <= u32_max.
Hypothesis Hact : 1 <= f_max_actions (r_st cfg).
Hypothesis Hpg : forall d, f_page (r_st cfg) d <= u64_max.
Variables (b : gmap N N) (mm : N) (v : TrState).
Notation s0 := (rt_start b mm v).

Lemma lift_all k cs : forall s st', st_all (r_st cfg) (env_st s) k cs (rs_st s) = Some st' -> all_accepted cfg k cs s = Some (up_st_ s st').
Proof.
  induction cs as [|c cs IH]; intros s st'; [cbn; intros [= <-]; by destruct s|]. cbn [st_all all_accepted].
  cbn [rt_dispatch o_who signed base_filter is_create_call o_filter]. rewrite andb_false_r. cbn [negb andb].
  destruct (st_dispatch _ _ _ _ _) as [st1|]; [|done]. cbn [lift]. intros H. rewrite (IH (up_st_ s st1) st'); [done|exact H].
Qed.

Lemma erase_lemma h k m : relays_from 0 h -> let s := rt_run cfg s0 h in controls (rs_msa s) k m ->
  exists cs st', all_accepted cfg k cs s = Some (up_st_ s st')
    /\ (forall l, loc_ok l -> loc_msa l = m -> ~ append_only s (loc_schema l) -> read (r_st cfg) st' l = Ok None)
    /\ (forall l, loc_ok l -> loc_msa l <> m \/ append_only s (loc_schema l) -> read (r_st cfg) st' l = read (r_st cfg) (rs_st s) l).
Proof.
  intros Hr s Hc. assert (Hs : rtc (micro cfg false) s0 s) by (apply (run_micro cfg); exact Hr).
  pose proof (reach_st cfg Hsz Hha b mm v s Hs) as I. pose proof (env_st_ok cfg b mm v s Hs) as He.
  set (all := places m (N.to_nat (u16_max + 1)) (N.to_nat (f_max_page_id (r_st cfg) + 1))).
  set (ls := filter (fun l => can (env_st s) l = true /\ loc_ok l) all).
  destruct (erase_list (r_st cfg) Hsz Hha Hact Hpg (env_st s) He k ls (rs_st s) I) as (cs & st' & A & I' & R & O).
  { apply Forall_forall. intros l Hl. apply elem_of_list_filter in Hl as [[H1 H2] Hin]. apply places_spec in Hin as [Hm _]. rewrite Hm. done. }
  exists cs, st'. split; [by apply lift_all|]. split.
  - intros l Hl Hm Ha. destruct (decide (l ∈ ls)) as [|Hn]; [by apply R|]. rewrite (O l Hl Hn).
    destruct (StProofs.read_ok _ Hsz Hha _ _ I Hl) as [[p|] Hrd]; [exfalso|done]. apply Hn. apply elem_of_list_filter.
    pose proof (proj1 (refs_run cfg Hsz Hha Hmg b mm v s Hs) l Hl ltac:(by exists p)) as [(i & Hi & Hk) _].
    split; [split; [|done]|].
    + unfold can. cbn [env_st v_schema]. rewrite Hi. rewrite bool_decide_eq_true_2 by done. cbn [andb].
      destruct (set_append_only _) eqn:Ea; [|done]. exfalso. apply Ha. by exists i.
    + apply places_spec. pose proof (StProofs.read_wf _ Hsz Hha _ _ _ I Hl Hrd) as [_ Hp]. split; [done|]. destruct l; cbn in *; lia.
  - intros l Hl Hor. apply O; [done|]. intros Hin. apply elem_of_list_filter in Hin as [[H1 _] Hin]. apply places_spec in Hin as [Hm _].
    destruct Hor as [?|(i & Hi & Ha)]; [done|]. unfold can in H1. cbn [env_st v_schema] in H1. rewrite Hi, Ha in H1. by rewrite andb_false_r in H1.
Qed.
End rt.
