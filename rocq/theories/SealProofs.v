(** Proofs about sealing. *)
From Verif Require Import Prelude SealModel SealSpec.

Lemma run_snoc mode h x : node_run mode (h ++ [x]) = node_step mode (node_run mode h) x.
Proof. unfold node_run. by rewrite fold_left_app. Qed.

(** ** One command *)
Lemma answer_other st s a :
  (n_ready (answer st s a), n_auto (answer st s a), n_rpc (answer st s a), n_chain (answer st s a), n_final (answer st s a), n_done (answer st s a))
  = (n_ready st, n_auto st, n_rpc st, n_chain st, n_final st, n_done st).
Proof. by destruct s. Qed.
Lemma ready_answer st s a : n_ready (answer st s a) = n_ready st. Proof. by destruct s. Qed.
Lemma auto_answer st s a : n_auto (answer st s a) = n_auto st. Proof. by destruct s. Qed.
Lemma rpc_answer st s a : n_rpc (answer st s a) = n_rpc st. Proof. by destruct s. Qed.
Lemma chain_answer st s a : n_chain (answer st s a) = n_chain st. Proof. by destruct s. Qed.
Lemma final_answer st s a : n_final (answer st s a) = n_final st. Proof. by destruct s. Qed.
Lemma answers_answer st s a : n_answers (answer st s a) = n_answers st ++ match s with Some s => [(s, a)] | None => [] end.
Proof. destruct s; [done|]. by rewrite app_nil_r. Qed.

(** A command seals a block or leaves chain and pool alone. *)
Inductive effect (st : Node) (c : Cmd) (pick : list N) (st' : Node) : Prop :=
| E_sealed e f s :
    c = SealNewBlock e f s ->
    (e = true \/ filter (fun t => t ∈ pick) (n_ready st) <> []) ->
    n_chain st' = n_chain st ++ [filter (fun t => t ∈ pick) (n_ready st)] ->
    n_ready st' = filter (fun t => t ∉ filter (fun t => t ∈ pick) (n_ready st)) (n_ready st) ->
    n_final st' = (if f then S (length (n_chain st)) else n_final st) ->
    n_answers st' = n_answers st ++ match s with Some s => [(s, Created (length (n_chain st)))] | None => [] end ->
    effect st c pick st'
| E_empty f s :
    c = SealNewBlock false f s -> n_ready st <> [] -> filter (fun t => t ∈ pick) (n_ready st) = [] ->
    st' = answer st s EmptyTransactionPool -> effect st c pick st'
| E_skipped f s : c = SealNewBlock false f s -> n_ready st = [] -> st' = st -> effect st c pick st'
| E_final b s :
    c = FinalizeBlock b s -> n_chain st' = n_chain st -> n_ready st' = n_ready st ->
    (n_final st' = n_final st /\ (length (n_chain st) <= b \/ S b < n_final st)%nat \/ (n_final st' = S b /\ b < length (n_chain st) /\ n_final st <= S b)%nat) ->
    (exists a, n_answers st' = n_answers st ++ match s with Some s => [(s, a)] | None => [] end /\ (a = Finalized <-> n_final st' = S b /\ (b < length (n_chain st) /\ n_final st <= S b)%nat) /\ (a = Finalized \/ a = NotFinalized)) ->
    effect st c pick st'.

Lemma len_zero {A} (l : list A) : (len l =? 0) = true <-> l = [].
Proof. unfold len. rewrite N.eqb_eq. destruct l; cbn; [done|]. split; [lia|done]. Qed.

Lemma run_effect st c pick : effect st c pick (run_command st c pick).
Proof.
  destruct c as [e f s|b s]; cbn [run_command].
  - destruct e; cbn [orb].
    + unfold seal_block. cbn [negb andb]. eapply (E_sealed _ _ _ _ true f s); try done; [by left|..].
      * rewrite chain_answer. by destruct f.
      * rewrite ready_answer. by destruct f.
      * rewrite final_answer. by destruct f.
      * rewrite answers_answer. by destruct f.
    + destruct (N.ltb_spec 0 (len (n_ready st))) as [Hr|Hr].
      * assert (Hne : n_ready st <> []) by (intros E; unfold len in Hr; rewrite E in Hr; cbn in Hr; lia).
        unfold seal_block. cbn [negb andb].
        destruct (len (n_ready st) =? 0) eqn:E0; [by apply len_zero in E0|]. cbn [orb].
        destruct (len (filter (fun t => t ∈ pick) (n_ready st)) =? 0) eqn:E1.
        -- apply len_zero in E1. by eapply (E_empty _ _ _ _ f s).
        -- eapply (E_sealed _ _ _ _ false f s); try done.
           ++ right. intros E2. rewrite E2 in E1. done.
           ++ rewrite chain_answer. by destruct f.
           ++ rewrite ready_answer. by destruct f.
           ++ rewrite final_answer. by destruct f.
           ++ rewrite answers_answer. by destruct f.
      * eapply (E_skipped _ _ _ _ f s); try done. unfold len in Hr. destruct (n_ready st); [done|]. cbn in Hr. lia.
  - unfold finalize_block. destruct (_ && _) eqn:E.
    + apply andb_true_iff in E as [H1%Nat.ltb_lt H2%Nat.leb_le].
      eapply (E_final _ _ _ _ b s); try done.
      * by rewrite chain_answer.
      * by rewrite ready_answer.
      * right. by rewrite final_answer.
      * exists Finalized. rewrite answers_answer, final_answer. split; [done|]. split; [|by left]. done.
    + apply andb_false_iff in E. rewrite Nat.ltb_ge, Nat.leb_gt in E.
      eapply (E_final _ _ _ _ b s); try done.
      * by rewrite chain_answer.
      * by rewrite ready_answer.
      * left. rewrite final_answer. done.
      * exists NotFinalized. rewrite answers_answer. split; [done|]. split; [|by right]. split; [done|]. rewrite final_answer. lia.
Qed.

Lemma run_streams st c pick : n_auto (run_command st c pick) = n_auto st /\ n_rpc (run_command st c pick) = n_rpc st.
Proof.
  destruct c as [e f s|b s]; cbn [run_command].
  - destruct (e || _); [|done]. unfold seal_block. destruct (_ && _); rewrite auto_answer, rpc_answer; [done|]. by destruct f.
  - unfold finalize_block. destruct (_ && _); by rewrite auto_answer, rpc_answer.
Qed.

(** ** Histories *)

(** Nothing is lost: what came is waiting, sealed, or dropped by the pool. *)
Lemma kept_lemma mode h t : Imported t ∈ h -> ~ dropped h t ->
  t ∈ n_ready (node_run mode h) \/ t ∈ concat (n_chain (node_run mode h)).
Proof.
  induction h as [|x h IH] using rev_ind; [by intros ?%elem_of_nil|]. intros Hin Hd. rewrite run_snoc.
  assert (Hd' : ~ dropped h t) by (intros (ts & H1 & H2); apply Hd; exists ts; split; [apply elem_of_app; by left|done]).
  set (st := node_run mode h) in *.
  assert (Hold : Imported t ∈ h -> t ∈ n_ready st \/ t ∈ concat (n_chain st)) by (intros; by apply IH). clear IH.
  apply elem_of_app in Hin. rewrite elem_of_list_singleton in Hin.
  destruct x as [t'|ts| |c|rpc pick]; cbn [node_step].
  - assert (Hr : t ∈ n_ready st ++ [t'] \/ t ∈ concat (n_chain st)).
    { destruct Hin as [Hin|Hin]; [destruct (Hold Hin); [left; apply elem_of_app; by left|by right]|].
      injection Hin as ->. left. apply elem_of_app. right. by apply elem_of_list_singleton. }
    destruct mode; exact Hr.
  - destruct Hin as [Hin|]; [|done]. destruct (Hold Hin) as [Hr|Hc]; [left|by right]. cbn. apply elem_of_list_filter. split; [|done].
    intros Hts. apply Hd. exists ts. split; [apply elem_of_app; right; by apply elem_of_list_singleton|done].
  - destruct Hin as [Hin|]; [|done]. destruct mode; by apply Hold.
  - destruct Hin as [Hin|]; [|done]. by apply Hold.
  - destruct Hin as [Hin|]; [|done]. specialize (Hold Hin). destruct (if rpc then n_rpc st else n_auto st) as [|c l]; [done|].
    cbn [up_done n_ready n_chain].
    set (st1 := if rpc then up_rpc st l else up_auto st l).
    assert (Hs : n_ready st1 = n_ready st /\ n_chain st1 = n_chain st) by (by destruct rpc). destruct Hs as [Hs1 Hs2].
    destruct (run_effect st1 c pick) as [e f s _ _ Ec Er _ _|f s _ _ _ E|f s _ _ E|b s _ Ec Er _ _].
    + rewrite Ec, Er, Hs1, Hs2. rewrite concat_app. cbn. rewrite app_nil_r, elem_of_app, !elem_of_list_filter.
      destruct Hold as [Hr|Hc]; [|by right; left]. destruct (decide (t ∈ pick)); [by right; right|]. left. split; [|done]. intros [? ?]. done.
    + rewrite E, ready_answer, chain_answer, Hs1, Hs2. done.
    + rewrite E, Hs1, Hs2. done.
    + rewrite Ec, Er, Hs1, Hs2. done.
Qed.

(** Instant sealing: never more transactions wait than there are commands to come. *)
Lemma filter_le {A} (P : A -> Prop) `{forall x, Decision (P x)} l : (length (filter P l) <= length l)%nat.
Proof. induction l as [|a l IH]; [done|]. rewrite filter_cons. destruct (decide _); cbn; lia. Qed.
Lemma filter_lt {A} (P : A -> Prop) `{forall x, Decision (P x)} l a : a ∈ l -> ~ P a -> (length (filter P l) < length l)%nat.
Proof.
  induction l as [|b l IH]; [by intros ?%elem_of_nil|]. intros [->|Hin]%elem_of_cons Hn; rewrite filter_cons.
  - rewrite decide_False by done. cbn. pose proof (filter_le P l). lia.
  - specialize (IH Hin Hn). destruct (decide _); cbn; lia.
Qed.

Definition waiting_ok (st : Node) : Prop :=
  (length (n_ready st) <= length (n_auto st))%nat /\ Forall (fun c => c = SealNewBlock true true None) (n_auto st).

Lemma turn_ready st c pick : (length (n_ready (run_command st c pick)) <= length (n_ready st))%nat.
Proof.
  destruct (run_effect st c pick) as [e f s _ _ Ec Er _ _|f s _ _ _ E|f s _ _ E|b s _ Ec Er _ _].
  - rewrite Er. apply filter_le.
  - by rewrite E, ready_answer.
  - by rewrite E.
  - by rewrite Er.
Qed.

Lemma waiting_step st x : waiting_ok st ->
  match x with Turn _ pick => n_ready st <> [] -> exists t, t ∈ n_ready st /\ t ∈ pick | _ => True end ->
  waiting_ok (node_step Instant st x).
Proof.
  intros [Hl Hf] Hp. destruct x as [t|ts| |c|rpc pick]; cbn [node_step].
  - split; cbn; [rewrite !app_length; cbn; lia|]. apply Forall_app. split; [done|]. by constructor.
  - split; [|done]. cbn. pose proof (filter_le (fun t => t ∉ ts) (n_ready st)). lia.
  - done.
  - done.
  - destruct rpc.
    + destruct (n_rpc st) as [|c l] eqn:E; [done|]. unfold waiting_ok. cbn [up_done n_ready n_auto].
      destruct (run_streams (up_rpc st l) c pick) as [-> _]. cbn. split; [|done].
      pose proof (turn_ready (up_rpc st l) c pick). cbn in H. lia.
    + destruct (n_auto st) as [|c l] eqn:E; [unfold waiting_ok; rewrite E; done|]. unfold waiting_ok. cbn [up_done n_ready n_auto].
      destruct (run_streams (up_auto st l) c pick) as [-> _]. cbn. inversion Hf as [|? ? Hc Hf']; subst. split; [|done].
      cbn in Hl. destruct (run_effect (up_auto st l) (SealNewBlock true true None) pick) as [e f s _ _ Ec Er _ _|f s Hd _ _ _|f s Hd _ _|b s Hd _ _ _ _]; try discriminate.
      rewrite Er. cbn. destruct (decide (n_ready st = [])) as [E0|Hne]; [rewrite E0; cbn; lia|].
      destruct (Hp Hne) as (t & Ht & Hpick).
      assert ((length (filter (fun t => t ∉ filter (fun t => t ∈ pick) (n_ready st)) (n_ready st)) < length (n_ready st))%nat); [|lia].
      apply filter_lt with t; [done|]. intros Hn. apply Hn. by apply elem_of_list_filter.
Qed.

Lemma waiting_run st h : waiting_ok st -> makes_progress Instant st h -> waiting_ok (fold_left (node_step Instant) h st).
Proof.
  revert st. induction h as [|x h IH]; intros st Hw Hp; [done|]. cbn in *. destruct Hp as [Hx Hp]. apply IH; [|done]. by apply waiting_step.
Qed.

Lemma instant_lemma h : makes_progress Instant node_start h -> n_auto (node_run Instant h) = [] -> n_ready (node_run Instant h) = [].
Proof.
  intros Hp Ha. assert (Hw : waiting_ok (node_run Instant h)) by (apply waiting_run; [split; [done|constructor]|done]).
  destruct Hw as [Hw _]. rewrite Ha in Hw. cbn in Hw. destruct (n_ready (node_run Instant h)); [done|cbn in Hw; lia].
Qed.

Lemma instant_sealed_lemma h t : makes_progress Instant node_start h -> n_auto (node_run Instant h) = [] ->
  Imported t ∈ h -> ~ dropped h t -> exists b, b ∈ n_chain (node_run Instant h) /\ t ∈ b.
Proof.
  intros Hp Ha Hin Hd. destruct (kept_lemma Instant h t Hin Hd) as [Hr|Hc].
  - rewrite instant_lemma in Hr by done. by apply elem_of_nil in Hr.
  - apply elem_of_list_In, in_concat in Hc as (b & H1 & H2). exists b. by rewrite !elem_of_list_In.
Qed.

(** What is sealed had been imported; nothing is sealed twice. *)
Lemma sealed_once_lemma mode h : NoDup (imports h) ->
  NoDup (n_ready (node_run mode h) ++ concat (n_chain (node_run mode h))) /\
  (forall t, t ∈ n_ready (node_run mode h) ++ concat (n_chain (node_run mode h)) -> t ∈ imports h).
Proof.
  induction h as [|x h IH] using rev_ind; [intros _; cbn; split; [constructor|done]|].
  unfold imports. rewrite map_app, concat_app. cbn. rewrite app_nil_r. fold (imports h). intros Hn.
  apply NoDup_app in Hn as (Hn & Hx & _). destruct (IH Hn) as [Hd Hs]. clear IH. rewrite run_snoc.
  set (st := node_run mode h) in *.
  assert (Hsame : forall r, (forall t, t ∈ r -> t ∈ n_ready st) -> NoDup r -> NoDup (r ++ concat (n_chain st)) /\
     forall t, t ∈ r ++ concat (n_chain st) -> t ∈ imports h ++ match x with Imported t => [t] | _ => [] end).
  { intros r Hsub Hr. apply NoDup_app in Hd as (Hd1 & Hd2 & Hd3). split.
    - apply NoDup_app. split; [done|]. split; [|done]. intros t Ht. apply Hd2. by apply Hsub.
    - intros t. rewrite !elem_of_app. intros [Ht|Ht]; left; apply Hs; apply elem_of_app; [left; by apply Hsub|by right]. }
  assert (Hdr : NoDup (n_ready st)) by (by apply NoDup_app in Hd as (Hd1 & _)).
  destruct x as [t|ts| |c|rpc pick]; cbn [node_step].
  - assert (H : NoDup ((n_ready st ++ [t]) ++ concat (n_chain st)) /\ forall t0, t0 ∈ (n_ready st ++ [t]) ++ concat (n_chain st) -> t0 ∈ imports h ++ [t]).
    { split.
      - rewrite <- app_assoc. cbn. rewrite <- Permutation_middle. apply NoDup_cons. split; [|done].
        intros Ht. apply Hs in Ht. apply (Hx t Ht). by apply elem_of_list_singleton.
      - intros t0. rewrite !elem_of_app. intros [[Ht|Ht]|Ht]; [left|by right|left]; apply Hs; apply elem_of_app; tauto. }
    destruct mode; exact H.
  - apply Hsame; [|by apply NoDup_filter]. cbn. intros t Ht. by apply elem_of_list_filter in Ht as [_ ?].
  - destruct mode; by apply Hsame.
  - by apply Hsame.
  - destruct (if rpc then n_rpc st else n_auto st) as [|c l]; [by apply Hsame|]. cbn [up_done n_ready n_chain].
    set (st1 := if rpc then up_rpc st l else up_auto st l).
    assert (Hst : n_ready st1 = n_ready st /\ n_chain st1 = n_chain st) by (by destruct rpc). destruct Hst as [Hs1 Hs2].
    destruct (run_effect st1 c pick) as [e f s _ _ Ec Er _ _|f s _ _ _ E|f s _ _ E|b s _ Ec Er _ _].
    + rewrite Ec, Er, Hs1, Hs2. rewrite concat_app. cbn. rewrite app_nil_r. clear Hsame. apply NoDup_app in Hd as (Hd1 & Hd2 & Hd3). split.
      * apply NoDup_app. split; [by apply NoDup_filter|]. split.
        -- intros t [Ht Hr]%elem_of_list_filter. rewrite elem_of_app. intros [Hc|Hc]; [by apply (Hd2 t)|done].
        -- apply NoDup_app. split; [done|]. split; [|by apply NoDup_filter]. intros t Hc [_ Hr]%elem_of_list_filter. by apply (Hd2 t).
      * intros t. rewrite !elem_of_app. intros [Ht|[Ht|Ht]]; left; apply Hs; apply elem_of_app.
        -- left. by apply elem_of_list_filter in Ht as [_ ?].
        -- by right.
        -- left. by apply elem_of_list_filter in Ht as [_ ?].
    + rewrite E, ready_answer, chain_answer, Hs1, Hs2. by apply Hsame.
    + rewrite E, Hs1, Hs2. by apply Hsame.
    + rewrite Ec, Er, Hs1, Hs2. by apply Hsame.
Qed.

(** ** Blocks come from commands *)
Definition is_seal (c : Cmd) : bool := match c with SealNewBlock _ _ _ => true | _ => false end.
Definition seals (l : list Cmd) : nat := length (List.filter is_seal l).
Lemma seals_app a b : seals (a ++ b) = (seals a + seals b)%nat.
Proof. unfold seals. by rewrite List.filter_app, app_length. Qed.
Definition own (mode : Mode) (h : list Happening) : nat :=
  match mode with Manual => 0 | Instant => length (imports h) | Interval _ => ticks h end.

Lemma imports_app a b : imports (a ++ b) = imports a ++ imports b.
Proof. unfold imports. by rewrite map_app, concat_app. Qed.
Lemma ticks_app a b : ticks (a ++ b) = (ticks a + ticks b)%nat.
Proof. unfold ticks. by rewrite List.filter_app, app_length. Qed.
Lemma asked_app a b : asked (a ++ b) = (asked a + asked b)%nat.
Proof. unfold asked. by rewrite List.filter_app, app_length. Qed.

Lemma counted mode h :
  let st := node_run mode h in
  (length (n_chain st) + seals (n_auto st) + seals (n_rpc st) <= own mode h + asked h)%nat.
Proof.
  induction h as [|x h IH] using rev_ind; [by destruct mode|]. cbn zeta in *. rewrite run_snoc, asked_app.
  set (st := node_run mode h) in *.
  destruct x as [t|ts| |c|rpc pick]; cbn [node_step].
  - unfold own, seals in *. rewrite imports_app, ticks_app. destruct mode; cbn; rewrite ?List.filter_app, ?app_length; cbn in *; lia.
  - unfold own, seals in *. rewrite imports_app, ticks_app. destruct mode; cbn; rewrite ?app_nil_r; cbn in *; lia.
  - unfold own, seals in *. rewrite imports_app, ticks_app. destruct mode; cbn; rewrite ?List.filter_app, ?app_length, ?app_nil_r; cbn in *; lia.
  - unfold own, seals in *. rewrite imports_app, ticks_app. cbn [n_rpc up_rpc n_auto n_chain]. rewrite List.filter_app, app_length.
    destruct mode, c; cbn; rewrite ?app_nil_r; cbn in *; lia.
  - assert (Hown : own mode (h ++ [Turn rpc pick]) = own mode h).
    { unfold own. rewrite imports_app, ticks_app. destruct mode; cbn; rewrite ?app_nil_r; lia. }
    rewrite Hown. change (asked [Turn rpc pick]) with 0%nat.
    destruct (if rpc then n_rpc st else n_auto st) as [|c l] eqn:El; [lia|]. cbn [up_done n_auto n_rpc n_chain].
    set (st1 := if rpc then up_rpc st l else up_auto st l).
    destruct (run_streams st1 c pick) as [-> ->].
    assert (Hst : n_chain st1 = n_chain st) by (by destruct rpc).
    assert (Hq : (seals (n_auto st1) + seals (n_rpc st1) + (if is_seal c then 1 else 0) = seals (n_auto st) + seals (n_rpc st))%nat).
    { destruct rpc; cbn; rewrite El; unfold seals; cbn; destruct (is_seal c); cbn; lia. }
    destruct (run_effect st1 c pick) as [e f s Hc _ Ec _ _ _|f s Hc _ _ E|f s Hc _ E|b s Hc Ec _ _ _]; subst c; cbn [is_seal] in Hq.
    + rewrite Ec, app_length, Hst. cbn. lia.
    + rewrite E, chain_answer, Hst. lia.
    + rewrite E, Hst. lia.
    + rewrite Ec, Hst. lia.
Qed.

Lemma blocks_lemma mode h : (length (n_chain (node_run mode h)) <= own mode h + asked h)%nat.
Proof. pose proof (counted mode h). cbn zeta in *. lia. Qed.

(** ** No empty blocks *)
Definition modest (c : Cmd) : Prop := match c with SealNewBlock true _ _ => False | _ => True end.
Lemma nonempty_lemma mode h : mode = Manual \/ mode = Interval false -> none_asks_empty h ->
  Forall (fun b => b <> []) (n_chain (node_run mode h)).
Proof.
  intros Hm Hn.
  assert (G : Forall (fun b => b <> []) (n_chain (node_run mode h)) /\ Forall modest (n_auto (node_run mode h)) /\ Forall modest (n_rpc (node_run mode h))).
  2:{ apply G. }
  induction h as [|x h IH] using rev_ind; [cbn; repeat split; constructor|].
  apply Forall_app in Hn as [Hn Hx]. rewrite Forall_singleton in Hx. destruct (IH Hn) as (H1 & H2 & H3). clear IH. rewrite run_snoc.
  set (st := node_run mode h) in *.
  destruct x as [t|ts| |c|rpc pick]; cbn [node_step].
  - destruct Hm as [->| ->]; cbn; done.
  - done.
  - destruct Hm as [->| ->]; cbn; [done|]. split; [done|]. split; [|done]. apply Forall_app. split; [done|]. by constructor.
  - cbn. split; [done|]. split; [done|]. apply Forall_app. split; [done|]. constructor; [|done]. destruct c as [[] ? ?|]; cbn in *; done.
  - destruct (if rpc then n_rpc st else n_auto st) as [|c l] eqn:El; [done|]. cbn [up_done n_auto n_rpc n_chain].
    set (st1 := if rpc then up_rpc st l else up_auto st l).
    destruct (run_streams st1 c pick) as [-> ->].
    assert (Hst : n_chain st1 = n_chain st) by (by destruct rpc).
    assert (Hc : modest c /\ Forall modest l).
    { destruct rpc; rewrite El in *; [inversion H3|inversion H2]; done. }
    destruct Hc as [Hc Hl].
    assert (Hq : Forall modest (n_auto st1) /\ Forall modest (n_rpc st1)) by (by destruct rpc).
    split; [|done].
    destruct (run_effect st1 c pick) as [e f s -> He Ec _ _ _|f s -> _ _ E|f s -> _ E|b s -> Ec _ _ _].
    + rewrite Ec, Hst. apply Forall_app. split; [done|]. constructor; [|done]. destruct He as [->|He]; [done|done].
    + by rewrite E, chain_answer, Hst.
    + by rewrite E, Hst.
    + by rewrite Ec, Hst.
Qed.

(** ** The chain only grows, and what is final stays *)
Lemma grows_step mode st x : exists l, n_chain (node_step mode st x) = n_chain st ++ l /\ (length l <= 1)%nat.
Proof.
  assert (H0 : forall c, c = n_chain st -> exists l, c = n_chain st ++ l /\ (length l <= 1)%nat) by (intros c ->; exists []; rewrite app_nil_r; cbn; split; [done|lia]).
  destruct x as [t|ts| |c|rpc pick]; cbn [node_step].
  - apply H0. by destruct mode.
  - by apply H0.
  - apply H0. by destruct mode.
  - by apply H0.
  - destruct (if rpc then n_rpc st else n_auto st) as [|c l]; [by apply H0|]. cbn [up_done n_chain].
    set (st1 := if rpc then up_rpc st l else up_auto st l).
    assert (Hst : n_chain st1 = n_chain st) by (by destruct rpc).
    destruct (run_effect st1 c pick) as [e f s -> He Ec _ _ _|f s -> _ _ E|f s -> _ E|b s -> Ec _ _ _].
    + rewrite Ec, Hst. eexists. split; [done|]. cbn. lia.
    + apply H0. by rewrite E, chain_answer.
    + apply H0. by rewrite E.
    + apply H0. by rewrite Ec.
Qed.

Lemma final_run mode h : (n_final (node_run mode h) <= length (n_chain (node_run mode h)))%nat.
Proof.
  induction h as [|x h IH] using rev_ind; [done|]. rewrite run_snoc. set (st := node_run mode h) in *.
  destruct x as [t|ts| |c|rpc pick]; cbn [node_step].
  - by destruct mode.
  - done.
  - by destruct mode.
  - done.
  - destruct (if rpc then n_rpc st else n_auto st) as [|c l]; [done|]. cbn [up_done n_chain n_final].
    set (st1 := if rpc then up_rpc st l else up_auto st l).
    assert (Hst : n_chain st1 = n_chain st /\ n_final st1 = n_final st) by (by destruct rpc). destruct Hst as [Hst Hf].
    destruct (run_effect st1 c pick) as [e f s -> He Ec _ Ef _|f s -> _ _ E|f s -> _ E|b s -> Ec _ Ef _].
    + rewrite Ec, Ef, app_length, Hst. cbn. destruct f; [|rewrite Hf]; lia.
    + rewrite E, chain_answer, final_answer, Hst, Hf. done.
    + rewrite E, Hst, Hf. done.
    + rewrite Ec. destruct Ef as [[-> _]|(-> & H & _)]; [rewrite Hst, Hf; done|lia].
Qed.

Lemma final_step mode h x : (n_final (node_run mode h) <= n_final (node_run mode (h ++ [x])))%nat.
Proof.
  rewrite run_snoc. pose proof (final_run mode h) as Hle. set (st := node_run mode h) in *.
  destruct x as [t|ts| |c|rpc pick]; cbn [node_step].
  - by destruct mode.
  - done.
  - by destruct mode.
  - done.
  - destruct (if rpc then n_rpc st else n_auto st) as [|c l]; [done|]. cbn [up_done n_final].
    set (st1 := if rpc then up_rpc st l else up_auto st l).
    assert (Hst : n_chain st1 = n_chain st /\ n_final st1 = n_final st) by (by destruct rpc). destruct Hst as [Hst Hf].
    destruct (run_effect st1 c pick) as [e f s -> He Ec _ Ef _|f s -> _ _ E|f s -> _ E|b s -> Ec _ Ef _].
    + rewrite Ef, Hst. destruct f; [lia|by rewrite Hf].
    + rewrite E, final_answer, Hf. done.
    + rewrite E, Hf. done.
    + destruct Ef as [[-> _]|(-> & _ & H)]; [by rewrite Hf|]. rewrite Hf in H. done.
Qed.

Lemma stable_lemma mode h h' :
  let st := node_run mode h in let st' := node_run mode (h ++ h') in
  (exists l, n_chain st' = n_chain st ++ l) /\ (n_final st <= n_final st' <= length (n_chain st'))%nat.
Proof.
  cbn zeta. split; [|split; [|apply final_run]].
  - induction h' as [|x h' IH] using rev_ind; [exists []; by rewrite !app_nil_r|].
    rewrite app_assoc, run_snoc. destruct IH as [l IH]. destruct (grows_step mode (node_run mode (h ++ h')) x) as (k & -> & _).
    rewrite IH. exists (l ++ k). by rewrite app_assoc.
  - induction h' as [|x h' IH] using rev_ind; [by rewrite app_nil_r|]. rewrite app_assoc.
    pose proof (final_step mode (h ++ h') x). lia.
Qed.

(** ** Answers *)
Lemma answered_lemma st c pick s : sender_of c = Some s ->
  let st' := run_command st c pick in
  (exists a, n_answers st' = n_answers st ++ [(s, a)] /\
     match a with
     | Created b => b = length (n_chain st) /\ exists txs, n_chain st' = n_chain st ++ [txs]
     | EmptyTransactionPool => n_chain st' = n_chain st /\ (forall t, t ∈ n_ready st -> t ∉ pick)
     | Finalized => exists b f, c = FinalizeBlock b f /\ n_final st' = S b /\ (b < length (n_chain st))%nat
     | NotFinalized => exists b f, c = FinalizeBlock b f /\ n_final st' = n_final st
     end) \/
  (st' = st /\ n_ready st = [] /\ exists f, c = SealNewBlock false f (Some s)).
Proof.
  intros Hs. cbn zeta. destruct (run_effect st c pick) as [e f s' -> He Ec _ Ef Ea|f s' -> _ Hp E|f s' -> Hr E|b s' -> Ec _ Ef (a & Ea & Ha & Hor)]; cbn in Hs; subst s'.
  - left. exists (Created (length (n_chain st))). split; [done|]. split; [done|]. by eexists.
  - left. exists EmptyTransactionPool. rewrite E. split; [done|]. split; [done|]. intros t Ht Hpick.
    assert (Hin : t ∈ filter (fun t => t ∈ pick) (n_ready st)) by (by apply elem_of_list_filter). rewrite Hp in Hin. by apply elem_of_nil in Hin.
  - right. split; [done|]. split; [done|]. by exists f.
  - left. exists a. split; [done|]. destruct Hor as [->| ->].
    + destruct (proj1 Ha eq_refl) as (H1 & H2 & _). by exists b, (Some s).
    + exists b, (Some s). split; [done|]. destruct Ef as [[-> _]|(H1 & H2 & H3)]; [done|]. by assert (NotFinalized = Finalized) by (apply Ha; done).
Qed.

(** A check for [makes_progress], for examples. *)
Fixpoint progress_b (mode : Mode) (st : Node) (h : list Happening) : bool :=
  match h with
  | [] => true
  | x :: h' =>
      match x with
      | Turn _ pick => match n_ready st with [] => true | _ => existsb (fun t => existsb (N.eqb t) pick) (n_ready st) end
      | _ => true
      end && progress_b mode (node_step mode st x) h'
  end.
Lemma progress_check mode st h : progress_b mode st h = true -> makes_progress mode st h.
Proof.
  revert st. induction h as [|x h IH]; intros st H; [done|]. cbn [progress_b makes_progress] in *.
  apply andb_true_iff in H as [Hx H]. split; [|by apply IH]. destruct x; try done. intros Hne.
  destruct (n_ready st) eqn:E; [done|]. rewrite <- E in *. apply existsb_exists in Hx as (t & Ht & Hp).
  apply existsb_exists in Hp as (u & Hu & <-%N.eqb_eq). exists t. by rewrite !elem_of_list_In.
Qed.
