(** The schema registry's invariant and the lemmas behind its properties. *)
From Verif Require Import Prelude CommonTypes Utf8 ScModel ScSpec ScProofs.

(** ** Event projections *)
Lemma created_emit st es : created (sc_emit st es) =
  created st ++ flat_map (fun e => match e with SchemaCreated _ id => [id] | _ => [] end) es.
Proof. unfold created, sc_emit. cbn [sc_events]. by rewrite flat_map_app. Qed.
Lemma named_emit nm st es : named nm (sc_emit st es) =
  named nm st ++ flat_map (fun e => match e with SchemaNameCreated id nm' => if bool_decide (nm' = nm) then [id] else [] | _ => [] end) es.
Proof. unfold named, sc_emit. cbn [sc_events]. by rewrite flat_map_app. Qed.
Lemma names_of_emit id st es : names_of id (sc_emit st es) =
  names_of id st ++ flat_map (fun e => match e with SchemaNameCreated i nm => if i =? id then [nm] else [] | _ => [] end) es.
Proof. unfold names_of, sc_emit. cbn [sc_events]. by rewrite flat_map_app. Qed.

(** ** Creating *)
Definition mk_info (r : Request) : ScInfo :=
  {| in_info := {| si_model_type := rq_type r; si_location := rq_location r; si_settings := set_settings (rq_settings r) |};
     in_has_name := match rq_name r with Some _ => true | None => false end |}.
Definition after_create (st : ScState) (key : N) (r : Request) (on : option SchemaName) : ScState :=
  let id := sc_count st + 1 in
  {| sc_max_bytes := sc_max_bytes st; sc_count := id; sc_infos := <[id := mk_info r]> (sc_infos st);
     sc_models := <[id := rq_model r]> (sc_models st);
     sc_names := match on with
                 | Some n => <[(nm_namespace n, nm_descriptor n) := ids_of st n ++ [id]]> (sc_names st)
                 | None => sc_names st
                 end;
     sc_version := sc_version st;
     sc_events := sc_events st ++ (SchemaCreated key id :: match on with Some n => [SchemaNameCreated id (full_name n)] | None => [] end);
     sc_proposals := sc_proposals st |}.

Section final.
Variable cfg : ScCfg.

Lemma version_add_ok ids id ids' : version_add ids id = Ok ids' <-> id ∉ ids /\ len ids < 254 /\ ids' = ids ++ [id].
Proof.
  unfold version_add, MAX_NUMBER_OF_VERSIONS. change (u8_max - 1) with 254. split.
  - destruct (bool_decide _) eqn:E; [done|]. apply bool_decide_eq_false in E. cbn [negb].
    destruct (N.ltb_spec (len ids) 254); [|done]. by intros [= <-].
  - intros (H1 & H2 & ->). rewrite bool_decide_eq_false_2 by done. cbn [negb]. by rewrite (proj2 (N.ltb_lt _ _)).
Qed.

Definition create_rq (st : ScState) (key : N) (r : Request) : res ScErr ScState :=
  create cfg st key (rq_model r) (rq_type r) (rq_location r) (rq_settings r) (rq_name r).

Lemma create_ok st key r st' :
  create_rq st key r = Ok st' <->
  sf_valid_model cfg (rq_type r) (rq_model r) = true
  /\ sf_min_bytes cfg <= len (rq_model r) /\ len (rq_model r) <= sc_max_bytes st
  /\ (AppendOnly ∈ rq_settings r -> rq_location r = Itemized)
  /\ sc_count st < 65535
  /\ exists on, match rq_name r with
                | None => on = None
                | Some p => exists n, on = Some n /\ try_parse p true = Ok n /\ sc_count st + 1 ∉ ids_of st n /\ len (ids_of st n) < 254
                end
     /\ st' = after_create st key r on.
Proof.
  unfold create_rq, create, create_schema_for.
  destruct (sf_valid_model _ _ _); [|split; [done|]; intros (? & _); done].
  destruct (N.leb_spec (sf_min_bytes cfg) (len (rq_model r))); [|split; [done|]; intros (_ & ? & _); lia].
  destruct (N.leb_spec (len (rq_model r)) (sc_max_bytes st)); [|split; [done|]; intros (_ & _ & ? & _); lia].
  destruct (negb _ || _) eqn:Ea.
  2:{ split; [done|]. intros (_ & _ & _ & Hi & _). apply orb_false_elim in Ea as [E1 E2].
      apply negb_false_iff, bool_decide_eq_true in E1. apply bool_decide_eq_false in E2. by apply Hi in E1. }
  assert (Hset : AppendOnly ∈ rq_settings r -> rq_location r = Itemized).
  { intros Hi. apply orb_prop in Ea as [E|E]; [|by apply bool_decide_eq_true in E].
    apply negb_true_iff, bool_decide_eq_false in E. done. }
  clear Ea. unfold add_schema, get_next_schema_id, chk_add. change u16_max with 65535.
  destruct (rq_name r) as [p|] eqn:En.
  - destruct (try_parse p true) as [n|e] eqn:Ep.
    2:{ split; [done|]. intros (_ & _ & _ & _ & _ & on & (n & _ & Hn & _) & _). done. }
    destruct (N.leb_spec (sc_count st + 1) 65535).
    2:{ split; [done|]. intros (_ & _ & _ & _ & ? & _). lia. }
    unfold add_name. destruct (version_add _ _) as [ids|e] eqn:Ev.
    + apply version_add_ok in Ev as (Hnew & Hl & ->). split.
      * intros [= <-]. repeat (split; [done||lia|]). exists (Some n). split; [by exists n|]. unfold after_create, mk_info. rewrite En. done.
      * intros (_ & _ & _ & _ & _ & on & (n' & -> & Hn' & _) & ->). injection Hn' as <-. unfold after_create, mk_info. rewrite En. done.
    + split; [done|]. intros (_ & _ & _ & _ & _ & on & (n' & -> & Hn' & Hnew & Hl) & ->). injection Hn' as <-.
      by rewrite (proj2 (version_add_ok _ _ _) (conj Hnew (conj Hl eq_refl))) in Ev.
  - destruct (N.leb_spec (sc_count st + 1) 65535).
    2:{ split; [done|]. intros (_ & _ & _ & _ & ? & _). lia. }
    split.
    + intros [= <-]. repeat (split; [done||lia|]). exists None. split; [done|]. unfold after_create, mk_info. rewrite En. done.
    + intros (_ & _ & _ & _ & _ & on & -> & ->). unfold after_create, mk_info. rewrite En. done.
Qed.

(** ** Invariant *)
Record sinv (g : N) (st : ScState) : Prop := {
  i_created : created st = map N.of_nat (seq 1 (N.to_nat (sc_count st)));
  i_count : sc_count st <= 65535;
  i_infos : forall id, is_Some (sc_infos st !! id) <-> 1 <= id <= sc_count st;
  i_models : forall id, is_Some (sc_models st !! id) <-> 1 <= id <= sc_count st;
  i_names : forall n, canonical n -> ids_of st n = named (full_name n) st;
  i_keys : forall ns d ids, sc_names st !! (ns, d) = Some ids -> canonical {| nm_namespace := ns; nm_descriptor := d |} /\ len ids <= 254;
  i_events : forall id nm, SchemaNameCreated id nm ∈ sc_events st -> (exists n, canonical n /\ nm = full_name n) /\ 1 <= id <= sc_count st;
  i_nodup : forall nm, NoDup (named nm st);
  i_hasname : forall id info, sc_infos st !! id = Some info -> in_has_name info = true -> length (names_of id st) = 1%nat;
  i_max : announced_max g st = sc_max_bytes st;
  i_rules : forall id info m, sc_infos st !! id = Some info -> sc_models st !! id = Some m ->
    sf_min_bytes cfg <= len m <= sf_hard_max cfg
    /\ sf_valid_model cfg (si_model_type (in_info info)) m = true
    /\ (set_append_only (si_settings (in_info info)) = true -> si_location (in_info info) = Itemized)
}.

Lemma genesis_inv g : sinv g (sc_genesis g).
Proof.
  split; cbn; try done.
  - intros id. rewrite lookup_empty. split; [by intros []|lia].
  - intros id. rewrite lookup_empty. split; [by intros []|lia].
  - intros id nm H. by apply elem_of_nil in H.
  - intros. constructor.
Qed.

Lemma named_elem g nm st id : sinv g st -> id ∈ named nm st -> 1 <= id <= sc_count st.
Proof.
  intros I H. unfold named in H. apply elem_of_list_In, in_flat_map in H as (e & He & H).
  destruct e as [| |i nm']; try by destruct H. destruct (bool_decide _); [|by destruct H].
  destruct H as [->|[]]. apply elem_of_list_In in He. by apply (i_events _ _ I) in He as [_ ?].
Qed.
Lemma names_of_fresh g st id : sinv g st -> sc_count st < id -> names_of id st = [].
Proof.
  intros I Hid. unfold names_of. destruct (flat_map _ _) as [|x l] eqn:E; [done|].
  assert (Hin : In x (flat_map (fun e => match e with SchemaNameCreated i nm => if i =? id then [nm] else [] | _ => [] end) (sc_events st))) by (rewrite E; left; done).
  apply in_flat_map in Hin as (e & He & H). destruct e as [| |i nm']; try by destruct H.
  destruct (N.eqb_spec i id) as [->|]; [|by destruct H]. apply elem_of_list_In in He. apply (i_events _ _ I) in He as [_ ?]. lia.
Qed.

Lemma set_settings_append l : forall s, set_append_only (fold_left set_setting l s) = set_append_only s || bool_decide (AppendOnly ∈ l).
Proof.
  induction l as [|x l IH]; intros s; cbn [fold_left].
  - rewrite bool_decide_eq_false_2 by apply not_elem_of_nil. by rewrite orb_false_r.
  - rewrite IH. destruct x; cbn [set_setting set_append_only].
    + rewrite (bool_decide_eq_true_2 (AppendOnly ∈ AppendOnly :: l)) by left. by rewrite orb_true_r.
    + f_equal. apply bool_decide_ext. rewrite elem_of_cons. naive_solver.
Qed.
Lemma set_settings_sig l : forall s, set_signature_required (fold_left set_setting l s) = set_signature_required s || bool_decide (SignatureRequired ∈ l).
Proof.
  induction l as [|x l IH]; intros s; cbn [fold_left].
  - rewrite bool_decide_eq_false_2 by apply not_elem_of_nil. by rewrite orb_false_r.
  - rewrite IH. destruct x; cbn [set_setting set_signature_required].
    + f_equal. apply bool_decide_ext. rewrite elem_of_cons. naive_solver.
    + rewrite (bool_decide_eq_true_2 (SignatureRequired ∈ SignatureRequired :: l)) by left. by rewrite orb_true_r.
Qed.

Lemma seq_snoc n : map N.of_nat (seq 1 (N.to_nat (n + 1))) = map N.of_nat (seq 1 (N.to_nat n)) ++ [n + 1].
Proof.
  replace (N.to_nat (n + 1)) with (N.to_nat n + 1)%nat by lia. rewrite seq_app, map_app. cbn. do 2 f_equal. lia.
Qed.

Lemma insert_some {A} (m : gmap N A) (c id : N) (v : A) :
  (forall id, is_Some (m !! id) <-> 1 <= id <= c) -> is_Some (<[c + 1 := v]> m !! id) <-> 1 <= id <= c + 1.
Proof.
  intros H. destruct (decide (id = c + 1)) as [->|Hne].
  - rewrite lookup_insert. split; [lia|done].
  - rewrite lookup_insert_ne by done. rewrite H. lia.
Qed.

Lemma ids_of_eq st st' n : sc_names st' = sc_names st -> ids_of st' n = ids_of st n.
Proof. unfold ids_of. by intros ->. Qed.
Lemma ids_of_insert st st' n n' ids : sc_names st' = <[(nm_namespace n, nm_descriptor n) := ids]> (sc_names st) ->
  ids_of st' n' = if bool_decide (n = n') then ids else ids_of st n'.
Proof.
  unfold ids_of. intros ->. case_bool_decide as E.
  - subst. by rewrite lookup_insert.
  - rewrite lookup_insert_ne; [done|]. destruct n, n'. cbn. congruence.
Qed.

Lemma create_inv g st key r st' : sinv g st -> len (rq_model r) <= sf_hard_max cfg -> match rq_name r with Some p => len p <= 32 | None => True end ->
  create_rq st key r = Ok st' -> sinv g st'.
Proof.
  intros I Hhard Hlen H. apply create_ok in H as (Hv & Hmin & Hmax & Hset & Hc & on & Hon & ->).
  assert (Hcan : forall n, on = Some n -> canonical n /\ sc_count st + 1 ∉ ids_of st n /\ len (ids_of st n) < 254).
  { intros n ->. destruct (rq_name r) as [p|]; [|done]. destruct Hon as (n' & [= <-] & Hp & ?).
    apply parse_strict in Hp; [|done]. naive_solver. }
  assert (Hname : in_has_name (mk_info r) = match on with Some _ => true | None => false end).
  { unfold mk_info. cbn. destruct (rq_name r); [by destruct Hon as (n & -> & _)|by rewrite Hon]. }
  clear Hon Hlen. split.
  - unfold after_create, created. cbn [sc_events sc_count]. rewrite flat_map_app. fold (created st). rewrite (i_created _ _ I), seq_snoc.
    by destruct on.
  - unfold after_create. cbn. lia.
  - intros id. unfold after_create. cbn [sc_infos sc_count]. apply insert_some, (i_infos _ _ I).
  - intros id. unfold after_create. cbn [sc_models sc_count]. apply insert_some, (i_models _ _ I).
  - intros n Hn. unfold named, after_create at 2. cbn [sc_events]. rewrite flat_map_app. fold (named (full_name n) st).
    destruct on as [n0|]; cbn [flat_map app].
    + erewrite (ids_of_insert st _ n0 n); [|reflexivity]. destruct (Hcan n0 eq_refl) as (Hn0 & _).
      case_bool_decide as E; case_bool_decide as E2.
      * subst. by rewrite (i_names _ _ I).
      * subst. done.
      * apply full_name_inj in E2; done.
      * rewrite app_nil_r. by apply (i_names _ _ I).
    + rewrite app_nil_r, (ids_of_eq st) by done. by apply (i_names _ _ I).
  - intros ns d ids. unfold after_create. cbn [sc_names]. destruct on as [n0|]; [|apply (i_keys _ _ I)].
    destruct (Hcan n0 eq_refl) as (Hn0 & _ & Hl).
    destruct (decide ((nm_namespace n0, nm_descriptor n0) = (ns, d))) as [E|E].
    + rewrite E, lookup_insert. intros [= <-]. destruct n0; cbn in E. injection E as -> ->. split; [done|]. rewrite len_app. change (len [sc_count st + 1]) with 1. lia.
    + rewrite lookup_insert_ne by done. apply (i_keys _ _ I).
  - intros id nm. unfold after_create. cbn [sc_events sc_count]. rewrite elem_of_app. intros [H|H].
    + apply (i_events _ _ I) in H as [? ?]. split; [done|lia].
    + apply elem_of_cons in H as [H|H]; [done|]. destruct on as [n0|]; [|by apply elem_of_nil in H].
      apply elem_of_list_singleton in H. injection H as -> ->. destruct (Hcan n0 eq_refl) as (Hn0 & _). split; [by exists n0|lia].
  - intros nm. unfold named, after_create. cbn [sc_events]. rewrite flat_map_app. fold (named nm st).
    destruct on as [n0|]; cbn [flat_map app]; [|rewrite app_nil_r; apply (i_nodup _ _ I)].
    case_bool_decide; [|rewrite app_nil_r; apply (i_nodup _ _ I)]. cbn [app].
    apply NoDup_app. split; [apply (i_nodup _ _ I)|]. split; [|apply NoDup_singleton].
    intros x Hx Hx'. apply elem_of_list_singleton in Hx'. apply (named_elem _ _ _ _ I) in Hx. lia.
  - intros id info. unfold after_create at 1. cbn [sc_infos]. intros Hi Hh.
    unfold names_of, after_create. cbn [sc_events]. rewrite flat_map_app. fold (names_of id st).
    destruct (decide (id = sc_count st + 1)) as [->|Hne].
    + rewrite lookup_insert in Hi. injection Hi as <-. rewrite Hname in Hh. destruct on; [|done].
      cbn [flat_map app]. rewrite N.eqb_refl, (names_of_fresh _ _ _ I) by lia. done.
    + rewrite lookup_insert_ne in Hi by done. destruct on; cbn [flat_map app].
      * rewrite (proj2 (N.eqb_neq _ _)) by congruence. rewrite app_nil_r. by eapply i_hasname.
      * rewrite app_nil_r. by eapply i_hasname.
  - unfold announced_max, after_create. cbn [sc_events sc_max_bytes]. rewrite fold_left_app. pose proof (i_max _ _ I) as Hmx.
    unfold announced_max in Hmx. rewrite Hmx. by destruct on.
  - intros id info m. unfold after_create. cbn [sc_infos sc_models].
    destruct (decide (id = sc_count st + 1)) as [->|Hne].
    + rewrite !lookup_insert. intros [= <-] [= <-]. cbn. split; [lia|]. split; [done|]. unfold set_settings. rewrite set_settings_append. cbn [set_append_only orb].
      intros E. apply bool_decide_eq_true in E. by apply Hset.
    + rewrite !lookup_insert_ne by done. apply (i_rules _ _ I).
Qed.

(** ** Naming *)
Definition after_name (st : ScState) (id : N) (n : SchemaName) : ScState :=
  {| sc_max_bytes := sc_max_bytes st; sc_count := sc_count st; sc_infos := sc_infos st; sc_models := sc_models st;
     sc_names := <[(nm_namespace n, nm_descriptor n) := ids_of st n ++ [id]]> (sc_names st);
     sc_version := sc_version st; sc_events := sc_events st ++ [SchemaNameCreated id (full_name n)]; sc_proposals := sc_proposals st |}.

Lemma verify_ok st id p n : len p <= 32 ->
  parse_and_verify st id p = Ok n <->
  (exists info, sc_infos st !! id = Some info /\ in_has_name info = false) /\ canonical n /\ spells p (full_name n).
Proof.
  intros Hl. unfold parse_and_verify. destruct (sc_infos st !! id) as [info|].
  - destruct (in_has_name info) eqn:E; cbn [negb].
    + split; [done|]. intros ((i & [= <-] & ?) & _). congruence.
    + rewrite parse_strict by done. split; [intros ?; split; [by exists info|done]|by intros (_ & ?)].
  - split; [done|]. intros ((i & ? & _) & _). done.
Qed.

Lemma name_inv g st id n : sinv g st -> canonical n -> (exists info, sc_infos st !! id = Some info /\ in_has_name info = false) ->
  id ∉ ids_of st n -> len (ids_of st n) < 254 -> sinv g (after_name st id n).
Proof.
  intros I Hn (info & Hi & Hh) Hnew Hl.
  assert (Hid : 1 <= id <= sc_count st) by (apply (i_infos _ _ I); by exists info).
  split; try (apply I; done).
  - unfold created, after_name. cbn [sc_events sc_count]. rewrite flat_map_app. fold (created st). cbn [flat_map]. rewrite app_nil_r. apply I.
  - intros n' Hn'. unfold named, after_name at 2. cbn [sc_events]. rewrite flat_map_app. fold (named (full_name n') st). cbn [flat_map app].
    erewrite (ids_of_insert st _ n n'); [|reflexivity]. case_bool_decide as E; case_bool_decide as E2.
    + subst. by rewrite (i_names _ _ I).
    + by subst.
    + by apply full_name_inj in E2.
    + rewrite app_nil_r. by apply (i_names _ _ I).
  - intros ns d ids. unfold after_name. cbn [sc_names].
    destruct (decide ((nm_namespace n, nm_descriptor n) = (ns, d))) as [E|E].
    + rewrite E, lookup_insert. intros [= <-]. destruct n; cbn in E. injection E as -> ->. split; [done|]. rewrite len_app. change (len [id]) with 1. lia.
    + rewrite lookup_insert_ne by done. apply (i_keys _ _ I).
  - intros i nm. unfold after_name. cbn [sc_events sc_count]. rewrite elem_of_app. intros [H|H]; [by apply (i_events _ _ I) in H|].
    apply elem_of_list_singleton in H. injection H as -> ->. split; [by exists n|done].
  - intros nm. unfold named, after_name. cbn [sc_events]. rewrite flat_map_app. fold (named nm st). cbn [flat_map app].
    case_bool_decide as E; [|rewrite app_nil_r; apply (i_nodup _ _ I)]. subst.
    apply NoDup_app. split; [apply (i_nodup _ _ I)|]. split; [|apply NoDup_singleton].
    intros x Hx Hx'. apply elem_of_list_singleton in Hx'. subst. rewrite (i_names _ _ I) in Hnew by done. done.
  - intros i info'. unfold after_name at 1. cbn [sc_infos]. intros Hi' Hh'.
    unfold names_of, after_name. cbn [sc_events]. rewrite flat_map_app. fold (names_of i st). cbn [flat_map].
    rewrite (proj2 (N.eqb_neq id i)) by congruence. cbn [app]. rewrite app_nil_r. by eapply i_hasname.
  - unfold announced_max, after_name. cbn [sc_events sc_max_bytes]. rewrite fold_left_app. pose proof (i_max _ _ I) as Hmx.
    unfold announced_max in Hmx. by rewrite Hmx.
Qed.

(** ** Dispatch *)
Lemma args_len x r key b : creates x = Some (r, key, b) ->
  args_ok cfg (sx_call x) = true <->
  len (rq_model r) <= sf_hard_max cfg /\ len (rq_settings r) <= sf_max_settings cfg /\ (forall p, rq_name r = Some p -> len p <= 32).
Proof.
  unfold creates. destruct (sx_call x); try done; intros [= <- <- <-]; cbn [args_ok rq_model rq_settings rq_name];
    unfold create_args_ok, SCHEMA_NAME_BYTES_MAX; rewrite ?len_nil; try (destruct name);
    rewrite ?andb_true_r, ?andb_true_iff, ?N.leb_le; naive_solver lia.
Qed.
Lemma dispatch_create st x r key b : creates x = Some (r, key, b) ->
  sc_apply cfg st x = if args_ok cfg (sx_call x) then (if b then create_rq st key r else Err ScBadOrigin) else Err ScUndecodable.
Proof.
  unfold creates, sc_apply, sc_dispatch. destruct x as [o ok c]. cbn [sx_call sx_origin sx_council_ok].
  destruct c; try done; intros [= <- <- <-]; destruct (args_ok _ _); try done; destruct o; reflexivity.
Qed.

(** Calls that do not create a schema. *)
Lemma dispatch_other st x st' : creates x = None -> sc_apply cfg st x = Ok st' ->
  (exists n, sx_call x = SetMaxSchemaModelBytes n /\ sx_origin x = ScRoot /\ n <= sf_hard_max cfg
     /\ sc_max_bytes st' = n /\ sc_count st' = sc_count st /\ sc_infos st' = sc_infos st /\ sc_models st' = sc_models st
     /\ sc_names st' = sc_names st /\ sc_events st' = sc_events st ++ [SchemaMaxSizeChanged n])
  \/ (exists id p n, sx_call x = CreateSchemaNameViaGovernance id p /\ (sx_origin x = ScRoot \/ sx_origin x = ScCouncil)
     /\ len p <= 32 /\ canonical n /\ spells p (full_name n)
     /\ (exists info, sc_infos st !! id = Some info /\ in_has_name info = false)
     /\ id ∉ ids_of st n /\ len (ids_of st n) < 254 /\ st' = after_name st id n)
  \/ (exists who c, sx_origin x = ScSigned who /\ st' = sc_propose st who c).
Proof.
  unfold creates, sc_apply, sc_dispatch. destruct x as [o ok c]. cbn [sx_call sx_origin sx_council_ok].
  destruct c; try done; intros _; destruct (args_ok _ _) eqn:Ea; try done; cbn [args_ok] in Ea.
  - destruct o; try done. destruct (N.leb_spec max_size (sf_hard_max cfg)); [|done]. intros [= <-]. left. exists max_size. done.
  - destruct o as [| |who|]; try done. cbn. destruct ok; [|done]. intros [= <-]. right. right. eauto.
  - destruct o as [| |who|]; try done. cbn. destruct ok; [|done]. intros [= <-]. right. right. eauto.
  - destruct o as [| |who|]; try done. cbn [ensure_signed]. destruct (parse_and_verify _ _ _); [|done]. destruct ok; [|done]. intros [= <-]. right. right. eauto.
  - destruct (governance o) eqn:Eg; [|done]. destruct (parse_and_verify st id name) as [n|] eqn:Ep; [|done].
    unfold name_args_ok, SCHEMA_NAME_BYTES_MAX in Ea. apply andb_prop in Ea as [_ Ea]. apply N.leb_le in Ea.
    apply verify_ok in Ep as (Hi & Hc & Hs); [|done]. unfold add_name.
    destruct (version_add _ _) as [ids|] eqn:Ev; [|done]. apply version_add_ok in Ev as (H1 & H2 & ->). intros [= <-].
    right. left. exists id, name, n. split; [done|]. split; [destruct o; try done; auto|]. done.
Qed.

Lemma apply_inv g st x st' : sinv g st -> sc_apply cfg st x = Ok st' -> sinv g st'.
Proof.
  intros I H. destruct (creates x) as [((r, key), b)|] eqn:Ec.
  - rewrite (dispatch_create _ _ _ _ _ Ec) in H. destruct (args_ok _ _) eqn:Ea; [|done]. destruct b; [|done].
    apply (args_len _ _ _ _ Ec) in Ea as (H1 & _ & H2). eapply create_inv; [exact I|done| |exact H].
    destruct (rq_name r); [by apply H2|done].
  - apply dispatch_other in H as [(n & _ & _ & Hn & H1 & H2 & H3 & H4 & H5 & H6)|[(id & p & n & _ & _ & _ & Hc & _ & Hi & Hnew & Hl & ->)|(who & c & _ & ->)]];
      [|by apply name_inv|by destruct I; split|done].
    destruct I. split; unfold created, named, names_of, announced_max, ids_of in *; rewrite ?H1, ?H2, ?H3, ?H4, ?H5, ?H6; try done.
    + rewrite flat_map_app. cbn. rewrite app_nil_r. done.
    + intros n' Hn'. rewrite flat_map_app. cbn. rewrite app_nil_r. by apply i_names0.
    + intros id nm. rewrite elem_of_app. intros [H|H]; [by eapply i_events0|]. by apply elem_of_list_singleton in H.
    + intros nm. rewrite flat_map_app. cbn. rewrite app_nil_r. done.
    + intros id info Hi Hh. rewrite flat_map_app. cbn. rewrite app_nil_r. by eapply i_hasname0.
    + rewrite fold_left_app. done.
Qed.
Lemma sstep_inv g st x : sinv g st -> sinv g (sc_step cfg st x).
Proof. intros I. unfold sc_step. destruct (sc_apply cfg st x) eqn:E; [by eapply apply_inv|done]. Qed.
Lemma srun_inv_from g h : forall st, sinv g st -> sinv g (sc_run cfg st h).
Proof. induction h as [|x h IH]; intros st I; [done|]. cbn. apply IH. by apply sstep_inv. Qed.
Lemma srun_inv g h : sinv g (sc_run cfg (sc_genesis g) h).
Proof. apply srun_inv_from, genesis_inv. Qed.

Lemma srun_app st h h' : sc_run cfg st (h ++ h') = sc_run cfg (sc_run cfg st h) h'.
Proof. apply fold_left_app. Qed.
Lemma len_created g st : sinv g st -> len (created st) = sc_count st.
Proof. intros I. rewrite (i_created _ _ I). unfold len. rewrite map_length, seq_length. lia. Qed.

Notation run g h := (sc_run cfg (sc_genesis g) h).

(** ** C70, C100 *)
Lemma ids_dense_lemma g h :
  created (run g h) = map N.of_nat (seq 1 (length (created (run g h))))
  /\ forall id, is_Some (get_schema_by_id (run g h) id) <-> 1 <= id <= len (created (run g h)).
Proof.
  pose proof (srun_inv g h) as I. pose proof (len_created _ _ I) as Hl. split.
  - rewrite (i_created _ _ I) at 1. do 2 f_equal. unfold len in Hl. lia.
  - intros id. rewrite Hl. rewrite <- (i_infos _ _ I id). unfold get_schema_by_id.
    pose proof (i_infos _ _ I id) as Hi. pose proof (i_models _ _ I id) as Hm. rewrite <- Hi in Hm.
    destruct (sc_infos _ !! id); [|split; by intros []]. destruct (sc_models _ !! id); [split; eauto|]. exfalso.
    destruct (proj2 Hm) as [? ?]; [eauto|done].
Qed.

Lemma step_keeps g st x id : sinv g st -> is_Some (sc_infos st !! id) ->
  sc_infos (sc_step cfg st x) !! id = sc_infos st !! id /\ sc_models (sc_step cfg st x) !! id = sc_models st !! id.
Proof.
  intros I Hid. unfold sc_step. destruct (sc_apply cfg st x) as [st'|] eqn:H; [|done].
  destruct (creates x) as [((r, key), b)|] eqn:Ec.
  - rewrite (dispatch_create _ _ _ _ _ Ec) in H. destruct (args_ok _ _) eqn:Ea; [|done]. destruct b; [|done].
    apply create_ok in H as (_ & _ & _ & _ & _ & on & _ & ->). apply (i_infos _ _ I) in Hid.
    unfold after_create. cbn [sc_infos sc_models]. rewrite !lookup_insert_ne by lia. done.
  - apply dispatch_other in H as [(n & _ & _ & _ & _ & _ & -> & -> & _)|[(i & p & n & _ & _ & _ & _ & _ & _ & _ & _ & ->)|(who & c & _ & ->)]]; done.
Qed.
Lemma run_keeps g h : forall st id, sinv g st -> is_Some (sc_infos st !! id) ->
  sc_infos (sc_run cfg st h) !! id = sc_infos st !! id /\ sc_models (sc_run cfg st h) !! id = sc_models st !! id.
Proof.
  induction h as [|x h IH]; intros st id I Hid; [done|]. cbn [sc_run fold_left].
  destruct (step_keeps _ _ x _ I Hid) as (E1 & E2). destruct (IH (sc_step cfg st x) id) as (E3 & E4).
  - by apply sstep_inv.
  - by rewrite E1.
  - unfold sc_run in *. by rewrite E3, E4, E1, E2.
Qed.
Lemma immutable_lemma g h h' id r i : get_schema_by_id (run g h) id = Some r -> get_schema_info_by_id (run g h) id = Some i ->
  get_schema_by_id (run g (h ++ h')) id = Some r /\ get_schema_info_by_id (run g (h ++ h')) id = Some i.
Proof.
  intros Hr Hi. rewrite srun_app. unfold get_schema_by_id, get_schema_info_by_id in *.
  destruct (sc_infos (run g h) !! id) as [info|] eqn:Ei; [|done].
  destruct (run_keeps g h' (run g h) id (srun_inv g h)) as (-> & ->); [by exists info|]. by rewrite Ei.
Qed.

Lemma create_iff g h x r key b : creates x = Some (r, key, b) ->
  is_ok (sc_apply cfg (run g h) x) = true <-> b = true /\ creatable cfg (run g h) r.
Proof.
  intros Ec. pose proof (srun_inv g h) as I. rewrite (dispatch_create _ _ _ _ _ Ec). unfold creatable. rewrite (len_created _ _ I).
  destruct (args_ok _ _) eqn:Ea.
  - apply (args_len _ _ _ _ Ec) in Ea as (H1 & H2 & H3). destruct b; [|split; [done|by intros [? _]]]. split.
    + destruct (create_rq _ key r) as [st'|] eqn:H; [|done]. intros _. apply create_ok in H as (Hv & Hmin & Hmax & Hset & Hc & on & Hon & _).
      repeat (split; [done||lia|]). intros p Hp. rewrite Hp in Hon. destruct Hon as (n & _ & Hn & _ & Hl).
      apply parse_strict in Hn as (Hcan & Hs); [|by apply H3]. exists n. split; [split; [by apply H3|done]|].
      unfold name_free. by rewrite <- (i_names _ _ I) by done.
    + intros (_ & Hv & (Hmin & _) & Hmax & _ & Hset & Hc & Hn).
      assert (E : exists on, match rq_name r with
                | None => on = None
                | Some p => exists n, on = Some n /\ try_parse p true = Ok n /\ sc_count (run g h) + 1 ∉ ids_of (run g h) n /\ len (ids_of (run g h) n) < 254
                end).
      { destruct (rq_name r) as [p|]; [|by exists None]. destruct (Hn p eq_refl) as (n & (Hl & Hcan & Hs) & Hf).
        exists (Some n), n. split; [done|]. split; [by apply parse_strict|]. rewrite (i_names _ _ I) by done. split; [|done].
        intros Hin. apply (named_elem _ _ _ _ I) in Hin. lia. }
      destruct E as (on & Hon).
      rewrite (proj2 (create_ok (run g h) key r (after_create (run g h) key r on))); [done|].
      repeat (split; [done|]). exists on. done.
  - split; [done|]. intros (_ & _ & (_ & H1) & _ & H2 & _ & _ & H3). exfalso.
    assert (args_ok cfg (sx_call x) = true); [|congruence]. apply (args_len _ _ _ _ Ec). split; [done|]. split; [done|].
    intros p Hp. by destruct (H3 p Hp) as (n & (Hl & _) & _).
Qed.

Lemma settings_response l : settings_list (set_settings l) =
  (if bool_decide (AppendOnly ∈ l) then [AppendOnly] else []) ++ (if bool_decide (SignatureRequired ∈ l) then [SignatureRequired] else []).
Proof. unfold settings_list, set_settings. rewrite set_settings_append, set_settings_sig. done. Qed.

Lemma create_effect g h x r key b st' : creates x = Some (r, key, b) -> sc_apply cfg (run g h) x = Ok st' ->
  let id := len (created (run g h)) + 1 in
  get_schema_by_id st' id = Some (response r)
  /\ exists es, sc_events st' = sc_events (run g h) ++ SchemaCreated key id :: es
     /\ match rq_name r with
        | None => es = []
        | Some p => exists n, means p n /\ es = [SchemaNameCreated id (full_name n)]
        end.
Proof.
  intros Ec H. pose proof (srun_inv g h) as I. rewrite (len_created _ _ I). rewrite (dispatch_create _ _ _ _ _ Ec) in H.
  destruct (args_ok _ _) eqn:Ea; [|done]. apply (args_len _ _ _ _ Ec) in Ea as (_ & _ & H3). destruct b; [|done].
  apply create_ok in H as (_ & _ & _ & _ & _ & on & Hon & ->). split.
  - unfold get_schema_by_id, after_create. cbn [sc_infos sc_models]. rewrite !lookup_insert. unfold response, mk_info. cbn.
    by rewrite settings_response.
  - unfold after_create. cbn [sc_events]. eexists. split; [reflexivity|]. destruct (rq_name r) as [p|].
    + destruct Hon as (n & -> & Hn & _). exists n. apply parse_strict in Hn; [|by apply H3]. split; [|done]. split; [by apply H3|done].
    + by rewrite Hon.
Qed.

(** ** C71 *)
Lemma named_len g st n : sinv g st -> canonical n -> len (named (full_name n) st) <= 254.
Proof.
  intros I Hn. rewrite <- (i_names _ _ I) by done. unfold ids_of. destruct (sc_names st !! _) as [ids|] eqn:E; [|rewrite len_nil; lia].
  by apply (i_keys _ _ I) in E as [_ ?].
Qed.
Lemma convert_eq n ids : len ids <= 254 -> convert_to_response n ids = versions (full_name n) ids.
Proof.
  intros Hl. unfold convert_to_response, versions. apply imap_ext. intros i id Hi. apply lookup_lt_Some in Hi. unfold len in Hl.
  rewrite N.mod_small by lia. done.
Qed.
Lemma versions_lemma g h p n : means p n -> get_schema_versions (run g h) p = Some (versions (full_name n) (named (full_name n) (run g h))).
Proof.
  intros (Hl & Hc & Hs). pose proof (srun_inv g h) as I. unfold get_schema_versions, SCHEMA_NAME_BYTES_MAX.
  rewrite (proj2 (N.leb_le _ _) Hl). rewrite (proj2 (parse_lax p n Hl)) by (left; done).
  destruct (N.ltb_spec 0 (len (nm_descriptor n))); [|destruct Hc as (_ & _ & _ & ?); lia].
  rewrite (i_names _ _ I) by done. rewrite convert_eq; [done|]. by eapply named_len.
Qed.

Lemma versions_elem name ids v : v ∈ versions name ids <->
  exists i, ids !! i = Some (vr_id v) /\ vr_name v = name /\ vr_version v = N.of_nat i + 1.
Proof.
  unfold versions. rewrite elem_of_lookup_imap. split.
  - intros (i & id & -> & Hi). exists i. done.
  - intros (i & Hi & <- & Hv). exists i, (vr_id v). split; [|done]. destruct v. cbn in *. by subst.
Qed.
Lemma versions_nodup name ids : NoDup (versions name ids).
Proof.
  apply NoDup_alt. intros i j v Hi Hj. unfold versions in *. rewrite list_lookup_imap in Hi, Hj.
  destruct (ids !! i); [|done]. destruct (ids !! j); [|done]. cbn in *. rewrite <- Hi in Hj. injection Hj. lia.
Qed.
Lemma nodup_flat_map {A B} (f : A -> list B) l : NoDup l -> (forall a, a ∈ l -> NoDup (f a)) ->
  (forall a b x, a ∈ l -> b ∈ l -> x ∈ f a -> x ∈ f b -> a = b) -> NoDup (flat_map f l).
Proof.
  induction 1 as [|a l Ha _ IH]; intros H1 H2; [constructor|]. cbn. apply NoDup_app. split; [apply H1; left|]. split.
  - intros x Hx Hx'. apply elem_of_list_In, in_flat_map in Hx' as (b & Hb & Hx'). apply elem_of_list_In in Hb, Hx'.
    apply Ha. rewrite (H2 a b x); [done|left|by right|done|done].
  - apply IH; [intros b Hb; apply H1; by right|]. intros b c x Hb Hc. apply H2; by right.
Qed.

Lemma namespace_lemma g h p ns : len p <= 32 -> word ns -> 3 <= len ns <= 30 -> spells p ns ->
  exists l, get_schema_versions (run g h) p = Some l /\ NoDup l
    /\ forall v, v ∈ l <-> exists d i, canonical {| nm_namespace := ns; nm_descriptor := d |}
         /\ vr_name v = full_name {| nm_namespace := ns; nm_descriptor := d |}
         /\ named (vr_name v) (run g h) !! i = Some (vr_id v) /\ vr_version v = N.of_nat i + 1.
Proof.
  intros Hl Hw Hn Hs. pose proof (srun_inv g h) as I. unfold get_schema_versions, SCHEMA_NAME_BYTES_MAX.
  rewrite (proj2 (N.leb_le _ _) Hl). rewrite (proj2 (parse_lax p {| nm_namespace := ns; nm_descriptor := [] |} Hl)) by (right; done).
  cbn [nm_descriptor nm_namespace]. change (0 <? len []) with false. cbn iota. eexists. split; [reflexivity|].
  set (f := fun kv : list N * list N * list N => if bool_decide (fst (fst kv) = ns)
               then convert_to_response {| nm_namespace := ns; nm_descriptor := snd (fst kv) |} (snd kv) else []).
  assert (Hf : forall kv, kv ∈ map_to_list (sc_names (run g h)) -> forall v, v ∈ f kv <->
     fst (fst kv) = ns /\ canonical {| nm_namespace := ns; nm_descriptor := snd (fst kv) |}
     /\ v ∈ versions (full_name {| nm_namespace := ns; nm_descriptor := snd (fst kv) |}) (snd kv)).
  { intros [[ns' d] ids] Hkv v. apply elem_of_map_to_list in Hkv. destruct (i_keys _ _ I _ _ _ Hkv) as (Hc & Hlen). cbn [fst snd].
    unfold f. cbn [fst snd]. case_bool_decide as E.
    - subst. rewrite convert_eq by done. naive_solver.
    - split; [intros Hv; by apply elem_of_nil in Hv|naive_solver]. }
  split.
  - apply nodup_flat_map.
    + apply NoDup_map_to_list.
    + intros [[ns' d] ids] Hkv. apply elem_of_map_to_list in Hkv. destruct (i_keys _ _ I _ _ _ Hkv) as (Hc & Hlen).
      unfold f. cbn [fst snd]. case_bool_decide; [|constructor]. rewrite convert_eq by done. apply versions_nodup.
    + intros a b v Ha Hb Hva Hvb. apply Hf in Hva as (Ea & Ca & Va); [|done]. apply Hf in Hvb as (Eb & Cb & Vb); [|done].
      apply versions_elem in Va as (i & _ & Na & _). apply versions_elem in Vb as (j & _ & Nb & _).
      rewrite Na in Nb. apply full_name_inj in Nb; [|done|done]. injection Nb as Nb.
      destruct a as [[na da] ia], b as [[nb db] ib]. cbn in *. subst.
      apply elem_of_map_to_list in Ha, Hb. congruence.
  - intros v. split.
    + intros Hv. apply elem_of_list_In, in_flat_map in Hv as (kv & Hkv & Hv). apply elem_of_list_In in Hkv, Hv.
      pose proof (proj1 (Hf kv Hkv v) Hv) as (E & Hc & Hver). apply versions_elem in Hver as (i & Hi & Hnm & Hvv).
      exists (snd (fst kv)), i. split; [done|]. split; [done|]. split; [|done]. rewrite Hnm, <- (i_names _ _ I) by done.
      unfold ids_of. cbn [nm_namespace nm_descriptor]. destruct kv as [[n' d] ids]. cbn in *. subst. apply elem_of_map_to_list in Hkv. by rewrite Hkv.
    + intros (d & i & Hc & Hnm & Hi & Hvv). rewrite Hnm, <- (i_names _ _ I) in Hi by done. unfold ids_of in Hi. cbn [nm_namespace nm_descriptor] in Hi.
      destruct (sc_names (run g h) !! (ns, d)) as [ids|] eqn:E; [|done].
      apply elem_of_list_In, in_flat_map. exists ((ns, d), ids). split; [by apply elem_of_list_In, elem_of_map_to_list|].
      apply elem_of_list_In. apply Hf; [by apply elem_of_map_to_list|]. cbn. split; [done|]. split; [done|]. apply versions_elem. by exists i.
Qed.

Lemma named_nodup_lemma g h nm : NoDup (named nm (run g h)) /\ len (named nm (run g h)) <= 254
  /\ forall id, id ∈ named nm (run g h) -> 1 <= id <= len (created (run g h)).
Proof.
  pose proof (srun_inv g h) as I. split; [apply (i_nodup _ _ I)|]. split.
  - destruct (named nm (run g h)) as [|x l] eqn:E; [rewrite len_nil; lia|]. rewrite <- E.
    assert (Hin : x ∈ named nm (run g h)) by (rewrite E; left). unfold named in Hin. apply elem_of_list_In, in_flat_map in Hin as (e & He & H).
    destruct e as [| |i nm']; try by destruct H. case_bool_decide; [|by destruct H]. subst.
    apply elem_of_list_In in He. apply (i_events _ _ I) in He as ((n & Hc & ->) & _). by eapply named_len.
  - intros id Hid. rewrite (len_created _ _ I). by eapply named_elem.
Qed.

(** ** C72 *)
Lemma named_names st id nm : id ∈ named nm st <-> nm ∈ names_of id st.
Proof.
  unfold named, names_of. rewrite !elem_of_list_In, !in_flat_map. split; intros (e & He & H); exists e; (split; [done|]); destruct e as [| |i nm']; try done.
  - case_bool_decide; [|done]. destruct H as [->|[]]. subst. rewrite N.eqb_refl. by left.
  - destruct (N.eqb_spec i id) as [->|]; [|done]. destruct H as [->|[]]. rewrite bool_decide_eq_true_2 by done. by left.
Qed.
Lemma one_name_lemma g h x r key b p st' n h' : creates x = Some (r, key, b) -> rq_name r = Some p -> means p n ->
  sc_apply cfg (run g h) x = Ok st' ->
  names_of (len (created (run g h)) + 1) (run g (h ++ x :: h')) = [full_name n].
Proof.
  intros Ec Hp Hm H. pose proof (srun_inv g h) as I. rewrite (len_created _ _ I).
  assert (Hst : sc_step cfg (run g h) x = st') by (unfold sc_step; by rewrite H).
  pose proof (apply_inv _ _ _ _ I H) as I'. rewrite srun_app. cbn [sc_run fold_left]. rewrite Hst.
  destruct (create_effect g h x r key b st' Ec H) as (_ & es & Hev & Hes). rewrite Hp in Hes. destruct Hes as (n' & (Hl & Hc & Hs) & ->).
  destruct Hm as (_ & Hc' & Hs'). rewrite <- (spells_fun p n n' Hl Hc' Hc Hs' Hs) in *. clear n' Hc Hs.
  rewrite (len_created _ _ I) in Hev.
  rewrite (dispatch_create _ _ _ _ _ Ec) in H. destruct (args_ok _ _); [|done]. destruct b; [|done].
  apply create_ok in H as (_ & _ & _ & _ & _ & on & Hon & E).
  assert (Hi : sc_infos st' !! (sc_count (run g h) + 1) = Some (mk_info r)) by (rewrite E; unfold after_create; cbn [sc_infos]; apply lookup_insert).
  assert (Hh : in_has_name (mk_info r) = true) by (unfold mk_info; cbn; by rewrite Hp).
  fold (sc_run cfg st' h').
  assert (Hmono : exists es, sc_events (sc_run cfg st' h') = sc_events st' ++ es).
  { clear. revert st'. induction h' as [|y h' IH]; intros st'; [exists []; by rewrite app_nil_r|]. cbn [sc_run fold_left].
    assert (exists es, sc_events (sc_step cfg st' y) = sc_events st' ++ es) as (es1 & E1).
    { unfold sc_step. destruct (sc_apply cfg st' y) as [st2|] eqn:H; [|exists []; by rewrite app_nil_r].
      destruct (creates y) as [((r & key) & b)|] eqn:Ec.
      - rewrite (dispatch_create _ _ _ _ _ Ec) in H. destruct (args_ok _ _); [|done]. destruct b; [|done].
        apply create_ok in H as (_ & _ & _ & _ & _ & on & Hon & ->). unfold after_create. cbn [sc_events]. eauto.
      - apply dispatch_other in H as [(n & _ & _ & _ & _ & _ & _ & _ & _ & ->)|[(i & p & n & _ & _ & _ & _ & _ & _ & _ & _ & ->)|(who & c & _ & ->)]]; [eauto|unfold after_name; cbn [sc_events]; eauto|exists []; by rewrite app_nil_r|done]. }
    destruct (IH (sc_step cfg st' y)) as (es2 & E2). unfold sc_run in E2. rewrite E2, E1. rewrite <- app_assoc. eauto. }
  destruct Hmono as (es & Hes).
  destruct (run_keeps g h' st' _ I' (ex_intro _ _ Hi)) as (Hi2 & _). rewrite Hi in Hi2.
  pose proof (i_hasname _ _ (srun_inv_from g h' st' I') _ _ Hi2 Hh) as Hlen.
  assert (Hin : full_name n ∈ names_of (sc_count (run g h) + 1) (sc_run cfg st' h')).
  { unfold names_of. rewrite Hes, Hev. rewrite !flat_map_app. cbn [flat_map]. rewrite N.eqb_refl.
    apply elem_of_app. left. apply elem_of_app. right. by left. }
  destruct (names_of _ _) as [|a [|]]; try done. by apply elem_of_list_singleton in Hin as ->.
Qed.

Lemma name_unnamed_lemma g h o ok id p : o = ScRoot \/ o = ScCouncil -> names_of id (run g h) = [] -> 1 <= id <= len (created (run g h)) ->
  let x := {| sx_origin := o; sx_council_ok := ok; sx_call := CreateSchemaNameViaGovernance id p |} in
  is_ok (sc_apply cfg (run g h) x) = true <-> exists n, means p n /\ name_free (run g h) n.
Proof.
  intros Ho Hn Hid x. pose proof (srun_inv g h) as I. rewrite (len_created _ _ I) in Hid.
  unfold x, sc_apply, sc_dispatch. cbn [sx_origin sx_council_ok sx_call args_ok]. unfold name_args_ok, SCHEMA_NAME_BYTES_MAX.
  assert (Hu : (id <=? u16_max) = true) by (apply N.leb_le; pose proof (i_count _ _ I); change u16_max with 65535; lia). rewrite Hu. cbn [andb].
  destruct (N.leb_spec (len p) 32) as [Hl|Hl]; [|split; [done|]; intros (n & (? & _) & _); lia].
  assert (Hg : governance o = true) by (by destruct Ho as [-> | ->]). rewrite Hg.
  destruct (proj2 (i_infos _ _ I id) Hid) as (info & Hi).
  assert (Hb : in_has_name info = false).
  { destruct (in_has_name info) eqn:E; [|done]. pose proof (i_hasname _ _ I _ _ Hi E) as L. by rewrite Hn in L. }
  destruct (parse_and_verify (run g h) id p) as [n|] eqn:Ev.
  - apply verify_ok in Ev as (_ & Hc & Hs); [|done]. unfold add_name. rewrite (i_names _ _ I) by done.
    assert (Hnew : id ∉ named (full_name n) (run g h)). { intros Hin. apply named_names in Hin. rewrite Hn in Hin. by apply elem_of_nil in Hin. }
    destruct (version_add _ _) as [ids|] eqn:Ea.
    + apply version_add_ok in Ea as (_ & Hf & _). split; [intros _|done]. exists n. split; [done|]. done.
    + split; [done|]. intros (n' & (_ & Hc' & Hs') & Hf). rewrite <- (spells_fun p n n' Hl Hc Hc' Hs Hs') in Hf.
      by rewrite (proj2 (version_add_ok _ _ _) (conj Hnew (conj Hf eq_refl))) in Ea.
  - split; [done|]. intros (n & (_ & Hc & Hs) & _). assert (Ok n = parse_and_verify (run g h) id p); [|congruence].
    symmetry. apply verify_ok; [done|]. split; [by exists info|done].
Qed.
Lemma name_effect g h x id p st' : sx_call x = CreateSchemaNameViaGovernance id p -> sc_apply cfg (run g h) x = Ok st' ->
  (sx_origin x = ScRoot \/ sx_origin x = ScCouncil) /\ 1 <= id <= len (created (run g h)) /\
  exists n, means p n /\ forall nm, named nm st' = named nm (run g h) ++ (if bool_decide (nm = full_name n) then [id] else []).
Proof.
  intros Hx H. pose proof (srun_inv g h) as I. rewrite (len_created _ _ I).
  assert (Ec : creates x = None) by (unfold creates; by rewrite Hx).
  pose proof H as H0. apply (dispatch_other _ _ _ Ec) in H as [(n & Hx' & _)|[(i & q & n & Hx' & Ho & Hl & Hc & Hs & (info & Hi & _) & _ & _ & ->)|(who & c & Ho & ->)]].
  - congruence.
  - rewrite Hx in Hx'. injection Hx' as <- <-. split; [done|]. split; [apply (i_infos _ _ I); by exists info|]. exists n. split; [done|].
    intros nm. unfold named, after_name. cbn [sc_events]. rewrite flat_map_app. cbn [flat_map]. rewrite app_nil_r. f_equal.
    by rewrite (bool_decide_ext (nm = full_name n) (full_name n = nm)) by done.
  - exfalso. unfold sc_apply, sc_dispatch in H0. rewrite Hx, Ho in H0. cbn [args_ok] in H0. by destruct (name_args_ok _ _).
Qed.

(** ** C74 *)
Lemma rules_lemma g h id r : get_schema_by_id (run g h) id = Some r ->
  sf_min_bytes cfg <= len (sr_model r) <= sf_hard_max cfg /\ sf_valid_model cfg (sr_model_type r) (sr_model r) = true
  /\ (AppendOnly ∈ sr_settings r -> sr_location r = Itemized).
Proof.
  pose proof (srun_inv g h) as I. unfold get_schema_by_id. destruct (sc_infos _ !! id) as [i|] eqn:Ei; [|done].
  destruct (sc_models _ !! id) as [m|] eqn:Em; [|done]. intros [= <-]. cbn.
  destruct (i_rules _ _ I _ _ _ Ei Em) as (H1 & H2 & H3). split; [done|]. split; [done|]. intros Hin. apply H3.
  unfold settings_list in Hin. destruct (set_append_only _); [done|]. destruct (set_signature_required _); [|by apply elem_of_nil in Hin].
  apply elem_of_list_singleton in Hin. done.
Qed.
Lemma max_lemma g h : g <= sf_hard_max cfg -> sc_max_bytes (run g h) <= sf_hard_max cfg.
Proof.
  intros Hg. enough (H : forall st, sc_max_bytes st <= sf_hard_max cfg -> sc_max_bytes (sc_run cfg st h) <= sf_hard_max cfg) by (by apply H).
  induction h as [|x h IH]; intros st Hst; [done|]. cbn [sc_run fold_left]. apply IH. unfold sc_step.
  destruct (sc_apply cfg st x) as [st'|] eqn:H; [|done]. destruct (creates x) as [((r & key) & b)|] eqn:Ec.
  - rewrite (dispatch_create _ _ _ _ _ Ec) in H. destruct (args_ok _ _); [|done]. destruct b; [|done].
    apply create_ok in H as (_ & _ & _ & _ & _ & on & Hon & ->). done.
  - apply dispatch_other in H as [(n & _ & _ & Hn & -> & _)|[(i & p & n & _ & _ & _ & _ & _ & _ & _ & _ & ->)|(who & c & _ & ->)]]; done.
Qed.
Lemma announced_max_lemma g h : sc_max_bytes (run g h) = announced_max g (run g h).
Proof. symmetry. apply (i_max _ _ (srun_inv g h)). Qed.

(** ** C101 *)
Lemma authority_lemma g h x who : sx_origin x = ScSigned who ->
  let st := run g h in let st' := run g (h ++ [x]) in
  sc_max_bytes st' = sc_max_bytes st
  /\ (forall id, id <= len (created st) -> names_of id st' = names_of id st)
  /\ (created st' = created st \/ created st' = created st ++ [len (created st) + 1] /\ SchemaCreated who (len (created st) + 1) ∈ sc_events st').
Proof.
  intros Ho st st'. pose proof (srun_inv g h) as I. fold st in I. unfold st'. rewrite srun_app. fold st. cbn [sc_run fold_left].
  rewrite (len_created _ _ I). unfold sc_step. destruct (sc_apply cfg st x) as [st2|] eqn:H; [|cbn [is_ok]; split; [done|]; split; [done|]; by left].
  destruct (creates x) as [((r & key) & b)|] eqn:Ec.
  - rewrite (dispatch_create _ _ _ _ _ Ec) in H. destruct (args_ok _ _); [|done]. destruct b; [|done].
    apply create_ok in H as (_ & _ & _ & _ & _ & on & Hon & ->). split; [done|]. split.
    + intros id Hid. unfold names_of, after_create. cbn [sc_events]. rewrite flat_map_app. destruct on; cbn [flat_map app].
      * rewrite (proj2 (N.eqb_neq _ _)) by lia. by rewrite app_nil_r.
      * by rewrite app_nil_r.
    + right. assert (key = who) as ->. { unfold creates in Ec. rewrite Ho in Ec. destruct (sx_call x); congruence. }
      split.
      * unfold created, after_create. cbn [sc_events]. rewrite flat_map_app. by destruct on.
      * unfold after_create. cbn [sc_events]. apply elem_of_app. right. left.
  - apply dispatch_other in H as [(n & _ & Ho' & _)|[(i & p & n & _ & Ho' & _)|(who' & c & _ & ->)]].
    + congruence.
    + rewrite Ho in Ho'. by destruct Ho'.
    + split; [done|]. split; [done|]. by left.
    + done.
Qed.

Lemma propose_lemma g h x who c st' : sx_origin x = ScSigned who -> proposed who (sx_call x) = Some c -> sc_apply cfg (run g h) x = Ok st' ->
  st' = sc_propose (run g h) who c.
Proof.
  unfold sc_apply, sc_dispatch, proposed. intros Ho Hp. rewrite Ho. destruct (args_ok _ _); [|done].
  destruct (sx_call x); try done; injection Hp as <-; cbn [ensure_signed].
  - destruct (sx_council_ok x); [|done]. by intros [= <-].
  - destruct (sx_council_ok x); [|done]. by intros [= <-].
  - destruct (parse_and_verify _ _ _); [|done]. destruct (sx_council_ok x); [|done]. by intros [= <-].
Qed.

(** ** C103 *)
Lemma valid_ids_lemma g h ids : are_all_schema_ids_valid (run g h) ids = true <->
  Forall (fun id => id = 0 \/ is_Some (get_schema_by_id (run g h) id)) ids.
Proof.
  pose proof (srun_inv g h) as I. destruct (ids_dense_lemma g h) as (_ & Hd). unfold are_all_schema_ids_valid. rewrite forallb_forall, Forall_forall.
  rewrite (len_created _ _ I) in Hd. split; intros H id Hid.
  - apply elem_of_list_In, H, N.leb_le in Hid. destruct (N.eq_dec id 0) as [|Hne]; [by left|]. right. apply Hd. lia.
  - apply elem_of_list_In in Hid. apply N.leb_le. destruct (H id Hid) as [->|Hs]; [lia|]. apply Hd in Hs. lia.
Qed.

(** ** The registration limit *)
Lemma many_schemas g k x r key : creates x = Some (r, key, true) -> rq_name r = None -> creatable cfg (sc_genesis g) r ->
  N.of_nat k <= 65535 -> exists h, len (created (run g h)) = N.of_nat k.
Proof.
  intros Ec Hn Hc. induction k as [|k IH]; intros Hk; [by exists []|].
  assert (Hmax : forall st h, Forall (fun y => y = x) h -> sc_max_bytes (sc_run cfg st h) = sc_max_bytes st).
  { clear -Ec. intros st h. revert st. induction h as [|y h IH]; intros st Hf; [done|]. apply Forall_cons in Hf as [-> Hf]. cbn [sc_run fold_left].
    unfold sc_run in IH. rewrite IH by done. unfold sc_step. destruct (sc_apply cfg st x) eqn:E; [|done].
    rewrite (dispatch_create _ _ _ _ _ Ec) in E. destruct (args_ok _ _); [|done]. apply create_ok in E as (_ & _ & _ & _ & _ & on & _ & ->). done. }
  exists (replicate (S k) x).
  assert (Hrep : forall j, N.of_nat j <= 65535 -> len (created (run g (replicate j x))) = N.of_nat j).
  { induction j as [|j IHj]; intros Hj; [done|]. specialize (IHj ltac:(lia)).
    replace (replicate (S j) x) with (replicate j x ++ [x]) by (rewrite replicate_S_end; done). rewrite srun_app.
    set (st := run g (replicate j x)) in *. cbn [sc_run fold_left].
    assert (Hok : is_ok (sc_apply cfg st x) = true).
    { apply (create_iff g (replicate j x) x r key true Ec). split; [done|]. fold st.
      destruct Hc as (H1 & H2 & H3 & H4 & H5 & _ & _). split; [done|]. split; [done|]. split.
      { unfold st. rewrite Hmax by (by apply Forall_replicate). done. }
      split; [done|]. split; [done|]. split; [lia|]. intros p Hp. congruence. }
    unfold sc_step. destruct (sc_apply cfg st x) as [st'|] eqn:E; [|done].
    destruct (create_effect g (replicate j x) x r key true st' Ec E) as (_ & es & Hev & Hes). rewrite Hn in Hes. subst es. fold st in Hev.
    unfold created. rewrite Hev, flat_map_app. fold (created st). rewrite len_app, IHj. cbn [flat_map app]. rewrite len_cons, len_nil. lia. }
  apply Hrep. done.
Qed.
End final.

(** ** C104: the migration *)
Definition known_parsed : list (N * SchemaName) :=
  Eval vm_compute in map (fun kv => (fst kv, match try_parse (snd kv) true with Ok n => n | Err _ => {| nm_namespace := []; nm_descriptor := [] |} end)) known_schemas.
Definition name_one (st : ScState) (kv : N * SchemaName) : ScState :=
  match sc_infos st !! fst kv with
  | None => st
  | Some info =>
      {| sc_max_bytes := sc_max_bytes st; sc_count := sc_count st;
         sc_infos := <[fst kv := {| in_info := in_info info; in_has_name := true |}]> (sc_infos st);
         sc_models := sc_models st;
         sc_names := <[(nm_namespace (snd kv), nm_descriptor (snd kv)) := [fst kv]]> (sc_names st);
         sc_version := sc_version st; sc_events := sc_events st; sc_proposals := sc_proposals st |}
  end.
Lemma migrate_parsed st : fold_left migrate_one known_schemas st = fold_left name_one known_parsed st.
Proof.
  unfold known_schemas, known_parsed. cbn [fold_left].
  assert (H : forall st id name n, (len name <=? SCHEMA_NAME_BYTES_MAX) = true -> try_parse name true = Ok n -> migrate_one st (id, name) = name_one st (id, n)).
  { clear. intros st id name n H1 H2. unfold migrate_one, name_one. cbn [fst snd]. rewrite H1, H2. done. }
  repeat (erewrite H; [|vm_compute; reflexivity|vm_compute; reflexivity]). reflexivity.
Qed.

Lemma name_all l : NoDup (map fst l) -> NoDup (map snd l) -> forall st,
  let st' := fold_left name_one l st in
  sc_max_bytes st' = sc_max_bytes st /\ sc_count st' = sc_count st /\ sc_models st' = sc_models st
  /\ sc_version st' = sc_version st /\ sc_events st' = sc_events st /\ sc_proposals st' = sc_proposals st
  /\ (forall id, sc_infos st' !! id = match sc_infos st !! id with
        | Some i => Some {| in_info := in_info i; in_has_name := in_has_name i || bool_decide (id ∈ map fst l) |} | None => None end)
  /\ (forall n, ids_of st' n = match list_find (fun kv => snd kv = n) l with
        | Some (_, (id, _)) => if sc_infos st !! id then [id] else ids_of st n
        | None => ids_of st n end).
Proof.
  induction l as [|[id n] l IH]; intros N1 N2 st; cbn zeta.
  - cbn [fold_left map]. repeat (split; [done|]). split; [|done]. intros id. destruct (sc_infos st !! id) as [[i b]|]; [|done].
    cbn. rewrite bool_decide_eq_false_2 by apply not_elem_of_nil. by rewrite orb_false_r.
  - cbn [map fst snd] in N1, N2. apply NoDup_cons in N1 as [F1 N1]. apply NoDup_cons in N2 as [F2 N2].
    cbn [fold_left]. destruct (IH N1 N2 (name_one st (id, n))) as (H1 & H2 & H3 & H4 & H5 & H6 & H7 & H8). clear IH.
    unfold name_one in *. cbn [fst snd] in *. destruct (sc_infos st !! id) as [info|] eqn:Ei.
    + cbn [sc_max_bytes sc_count sc_models sc_version sc_events sc_proposals sc_infos] in *.
      repeat (split; [done|]). split.
      * intros i. rewrite H7. cbn [map fst]. destruct (decide (i = id)) as [->|Hne].
        -- rewrite lookup_insert, Ei. cbn [in_info in_has_name]. rewrite (bool_decide_eq_true_2 (id ∈ id :: _)) by left. by rewrite orb_true_r.
        -- rewrite lookup_insert_ne by done. destruct (sc_infos st !! i) as [i0|]; [|done]. do 2 f_equal. f_equal. apply bool_decide_ext. rewrite elem_of_cons. naive_solver.
      * intros n'. rewrite H8. cbn [list_find].
        assert (Hl : forall j, j ∈ map fst l -> <[id := {| in_info := in_info info; in_has_name := true |}]> (sc_infos st) !! j = sc_infos st !! j).
        { intros j Hj. apply lookup_insert_ne. by intros ->. }
        erewrite (ids_of_insert st _ n n') by reflexivity. destruct (decide (snd (id, n) = n')) as [E|E]; cbn [snd] in E.
        -- subst n'. rewrite bool_decide_eq_true_2 by done. rewrite Ei.
           destruct (list_find _ l) as [[k [j m]]|] eqn:Ef; [|done]. exfalso. apply list_find_Some in Ef as (Ej & <- & _).
           apply F2. cbn. apply elem_of_list_lookup_2 in Ej. apply elem_of_list_fmap. by exists (j, m).
        -- rewrite bool_decide_eq_false_2 by done. destruct (list_find _ l) as [[k [j m]]|] eqn:Ef; cbn; [|done].
           apply list_find_Some in Ef as (Ej & _ & _). rewrite Hl; [done|]. apply elem_of_list_fmap. exists (j, m). split; [done|]. by apply elem_of_list_lookup_2 in Ej.
    + repeat (split; [done|]). split.
      * intros i. rewrite H7. cbn [map fst]. destruct (sc_infos st !! i) as [i0|] eqn:Ei0; [|done]. do 2 f_equal. f_equal. apply bool_decide_ext.
        rewrite elem_of_cons. split; [by right|]. intros [->|?]; [congruence|done].
      * intros n'. rewrite H8. cbn [list_find]. destruct (decide (snd (id, n) = n')) as [E|E]; cbn [snd] in E.
        -- subst n'. rewrite Ei. destruct (list_find _ l) as [[k [j m]]|] eqn:Ef; [|done]. exfalso. apply list_find_Some in Ef as (Ej & <- & _).
           apply F2. cbn. apply elem_of_list_lookup_2 in Ej. apply elem_of_list_fmap. by exists (j, m).
        -- destruct (list_find _ l) as [[k [j m]]|]; done.
Qed.

Lemma known_nodup : NoDup (map fst known_parsed) /\ NoDup (map snd known_parsed).
Proof. split; apply (bool_decide_unpack _); vm_compute; exact I. Qed.
Lemma known_canonical : Forall (fun kv => canonical (snd kv)) known_parsed.
Proof.
  assert (H : forall n, (len (full_name n) <=? 32) = true -> try_parse (full_name n) true = Ok n -> canonical n).
  { intros n Hl Hn. apply N.leb_le in Hl. by apply parse_strict in Hn as [? _]. }
  unfold known_parsed. repeat (apply List.Forall_cons; [|]); try apply List.Forall_nil; (apply H; vm_compute; reflexivity).
Qed.
Lemma known_eq : map (fun kv => (fst kv, full_name (snd kv))) known_parsed = known_schemas.
Proof. reflexivity. Qed.
Lemma known_len : Forall (fun kv => len (full_name (snd kv)) <= 32) known_parsed.
Proof. unfold known_parsed. repeat (apply List.Forall_cons; [|]); try apply List.Forall_nil; vm_compute; done. Qed.

Lemma migrate_eq st : sc_version st < 4 ->
  migrate_to_v4 true st = (let st' := fold_left name_one known_parsed st in
    {| sc_max_bytes := sc_max_bytes st'; sc_count := sc_count st'; sc_infos := sc_infos st'; sc_models := sc_models st';
       sc_names := sc_names st'; sc_version := 4; sc_events := sc_events st'; sc_proposals := sc_proposals st' |}).
Proof. intros H. unfold migrate_to_v4. rewrite (proj2 (N.ltb_lt _ _) H), migrate_parsed. done. Qed.

Lemma query_full st p n : means p n -> get_schema_versions st p = Some (convert_to_response n (ids_of st n)).
Proof.
  intros (Hl & Hc & Hs). unfold get_schema_versions, SCHEMA_NAME_BYTES_MAX.
  rewrite (proj2 (N.leb_le _ _) Hl). rewrite (proj2 (parse_lax p n Hl)) by (left; done).
  destruct (N.ltb_spec 0 (len (nm_descriptor n))); [done|destruct Hc as (_ & _ & _ & ?); lia].
Qed.

Lemma migrate_known st id name : sc_version st < 4 -> (id, name) ∈ known_schemas -> is_Some (get_schema_info_by_id st id) ->
  get_schema_versions (migrate_to_v4 true st) name = Some [{| vr_name := name; vr_id := id; vr_version := 1 |}]
  /\ forall cfg o ok p, is_ok (sc_apply cfg (migrate_to_v4 true st) {| sx_origin := o; sx_council_ok := ok; sx_call := CreateSchemaNameViaGovernance id p |}) = false.
Proof.
  intros Hv Hin Hs. rewrite <- known_eq in Hin. apply elem_of_list_fmap in Hin as ([id' n] & [= -> ->] & Hin).
  destruct known_nodup as (N1 & N2). destruct (name_all _ N1 N2 st) as (_ & _ & _ & _ & _ & _ & Hinf & Hids).
  pose proof (proj1 (Forall_forall _ _) known_canonical _ Hin) as Hc. pose proof (proj1 (Forall_forall _ _) known_len _ Hin) as Hl. cbn [snd] in Hc, Hl.
  rewrite (migrate_eq _ Hv). cbn zeta. unfold get_schema_info_by_id in Hs. destruct (sc_infos st !! id') as [info|] eqn:Ei; [|by destruct Hs].
  split.
  - rewrite (query_full _ _ n) by (split; [done|split; [done|by apply spells_self]]).
    rewrite (ids_of_eq (fold_left name_one known_parsed st)) by reflexivity. rewrite Hids.
    assert (E : exists k, list_find (fun kv => snd kv = n) known_parsed = Some (k, (id', n))).
    { apply elem_of_list_lookup in Hin as (k & Hk). exists k. apply list_find_Some. split; [done|]. split; [done|].
      intros j [j1 j2] Hj Hlt E. cbn in E. subst j2.
      assert (j = k); [|lia]. eapply (NoDup_lookup _ j k n N2); rewrite list_lookup_fmap; [by rewrite Hj|by rewrite Hk]. }
    destruct E as (k & ->). rewrite Ei. reflexivity.
  - intros cfg o ok p. unfold sc_apply, sc_dispatch. cbn [sx_origin sx_council_ok sx_call]. destruct (args_ok _ _); [|done]. destruct (governance o); [|done].
    unfold parse_and_verify. cbn [sc_infos]. rewrite Hinf, Ei. cbn [in_has_name].
    rewrite (bool_decide_eq_true_2 (id' ∈ _)); [by rewrite orb_true_r|]. apply elem_of_list_fmap. by exists (id', n).
Qed.
Lemma migrate_keeps b st : 
  (forall id, get_schema_by_id (migrate_to_v4 b st) id = get_schema_by_id st id)
  /\ (forall id, get_schema_info_by_id (migrate_to_v4 b st) id = get_schema_info_by_id st id)
  /\ sc_count (migrate_to_v4 b st) = sc_count st /\ sc_max_bytes (migrate_to_v4 b st) = sc_max_bytes st
  /\ (forall p n, means p n -> full_name n ∉ map snd known_schemas -> get_schema_versions (migrate_to_v4 b st) p = get_schema_versions st p).
Proof.
  destruct (N.ltb_spec (sc_version st) 4) as [Hv|Hv].
  2:{ unfold migrate_to_v4. by rewrite (proj2 (N.ltb_ge _ _) Hv). }
  destruct b.
  - destruct known_nodup as (N1 & N2). destruct (name_all _ N1 N2 st) as (E1 & E2 & E3 & _ & _ & _ & Hinf & Hids).
    rewrite (migrate_eq _ Hv). cbn zeta. unfold get_schema_by_id, get_schema_info_by_id. cbn [sc_infos sc_models sc_count sc_max_bytes].
    split; [intros id; rewrite Hinf, E3; by destruct (sc_infos st !! id)|]. split; [intros id; rewrite Hinf; by destruct (sc_infos st !! id)|].
    split; [done|]. split; [done|]. intros p n Hm Hn. rewrite !(query_full _ p n Hm). rewrite (ids_of_eq (fold_left name_one known_parsed st)) by reflexivity. rewrite Hids.
    destruct (list_find _ _) as [[k [id m]]|] eqn:E; [|done]. exfalso. apply list_find_Some in E as (Hk & E & _). cbn in E. subst m. apply Hn.
    rewrite <- known_eq, map_map. apply elem_of_list_lookup_2 in Hk. apply elem_of_list_fmap. by exists (id, n).
  - unfold migrate_to_v4. rewrite (proj2 (N.ltb_lt _ _) Hv). cbn [fold_left]. repeat (split; [done|]). intros p n Hm _. by rewrite !(query_full _ p n Hm).
Qed.
Lemma migrate_again b b' st : migrate_to_v4 b' (migrate_to_v4 b st) = migrate_to_v4 b st.
Proof. unfold migrate_to_v4 at 2 3. destruct (sc_version st <? 4) eqn:E; [done|]. unfold migrate_to_v4. by rewrite E. Qed.
