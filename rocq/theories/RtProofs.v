(** Lemmas about the runtime. *)
From Verif Require Import Prelude CommonTypes SigModel MsaModel CapModel TrModel StModel HModel ScModel MgModel FeeModel RtModel.
From Verif Require Import RtSpec.

(** ** Induction over call trees *)
Section ind.
Variable P : RtCall -> Prop.
Hypothesis Hleaf : forall c, plain c -> P c.
Hypothesis Hutil : forall k l, Forall P l -> P (RUtility k l).
Hypothesis Hpay : forall c, P c -> P (RPay c).
Hypothesis Hpayb : forall l, Forall P l -> P (RPayBatch l).
Hypothesis Hproxy : forall r f c, P c -> P (RProxy r f c).
Hypothesis Hmulti : forall l c, P c -> P (RMultisig1 l c).
Fixpoint call_ind (c : RtCall) : P c :=
  let fix all (l : list RtCall) : Forall P l :=
    match l with [] => List.Forall_nil P | c :: l' => List.Forall_cons P c l' (call_ind c) (all l') end in
  match c with
  | RUtility k l => Hutil k l (all l)
  | RPay c => Hpay c (call_ind c)
  | RPayBatch l => Hpayb l (all l)
  | RProxy r f c => Hproxy r f c (call_ind c)
  | RMultisig1 l c => Hmulti l c (call_ind c)
  | RMsa x => Hleaf (RMsa x) I
  | RHandles x => Hleaf (RHandles x) I
  | RStorage x => Hleaf (RStorage x) I
  | RMessages x => Hleaf (RMessages x) I
  | RSchemas x => Hleaf (RSchemas x) I
  | RCapacity x => Hleaf (RCapacity x) I
  | RTime x => Hleaf (RTime x) I
  | RBalances x => Hleaf (RBalances x) I
  | RAddProxy d t => Hleaf (RAddProxy d t) I
  | ROther p => Hleaf (ROther p) I
  end.
End ind.

Lemma lift_ok {E A B} (f : E -> RtErr) (m : res E A) (k : A -> res RtErr B) x :
  lift f m k = Ok x -> exists a, m = Ok a /\ k a = Ok x.
Proof. destruct m; cbn; [|done]. eauto. Qed.

Lemma run_batch_rel (R : RtState -> RtState -> Prop) k f l :
  (forall s, R s s) -> (forall a b c, R a b -> R b c -> R a c) ->
  Forall (fun c => forall st st', f c st = Ok st' -> R st st') l ->
  forall st st', run_batch k f l st = Ok st' -> R st st'.
Proof.
  intros Hr Ht. induction l as [|c l IH]; cbn; intros F st st' H; [inversion H; subst; apply Hr|].
  inversion F; subst. destruct (f c st) as [s1|e] eqn:E.
  - eapply Ht; [by apply H2|]. by apply IH.
  - destruct k; [inversion H; subst; apply Hr|done|by apply IH].
Qed.

Section rt.
Variable cfg : RtCfg.
Notation dispatch := (rt_dispatch cfg).
Notation mainnet := (r_mainnet cfg).

(** A leaf of the tree [c0] ran. *)
Definition ran (c0 : RtCall) (st st' : RtState) : Prop :=
  exists c o, c ∈ leaves c0 /\ plain c /\ dispatch c o st = Ok st'.

Lemma dispatch_filter c o st st' : dispatch c o st = Ok st' -> base_filter mainnet c = true /\ o_filter o c = true.
Proof. intros H. destruct c; cbn [rt_dispatch] in H; destruct (base_filter _ _ && _) eqn:E; try done; by apply andb_true_iff in E. Qed.

Lemma elem_concat (c x : RtCall) l : c ∈ leaves x -> x ∈ l -> c ∈ concat (map leaves l).
Proof. intros H Hx. apply elem_of_list_In, in_concat. exists (leaves x). split; apply elem_of_list_In; [|done]. apply elem_of_list_fmap. eauto. Qed.

Lemma rtc_sub (R S : RtState -> RtState -> Prop) a b : rtc R a b -> (forall x y, R x y -> S x y) -> rtc S a b.
Proof. intros H HS. induction H; econstructor; eauto. Qed.

Lemma dispatch_leaves : forall c o st st', dispatch c o st = Ok st' -> rtc (ran c) st st'.
Proof.
  induction c as [c Hl|k l IH|c IH|l IH|r f c IH|os c IH] using call_ind; intros o st st' H.
  - apply rtc_once. exists c, o. assert (E : leaves c = [c]) by (by destruct c). rewrite E. split; [by left|done].
  - cbn [rt_dispatch] in H. destruct (base_filter _ _ && _); [|done].
    eapply (run_batch_rel (rtc (ran (RUtility k l)))); [done|by intros ??? H1 H2; etrans| |exact H].
    apply Forall_forall. intros c Hc s s' Hs. eapply rtc_sub; [eapply (proj1 (Forall_forall _ _) IH c Hc); exact Hs|].
    intros x y (c1 & o1 & H1 & H2). exists c1, o1. split; [by eapply elem_concat|done].
  - cbn [rt_dispatch] in H. destruct (base_filter _ _ && _); [|done]. by apply IH in H.
  - cbn [rt_dispatch] in H. destruct (base_filter _ _ && _); [|done]. destruct (_ <=? _); [|done].
    eapply (run_batch_rel (rtc (ran (RPayBatch l)))); [done|by intros ??? H1 H2; etrans| |exact H].
    apply Forall_forall. intros c Hc s s' Hs. eapply rtc_sub; [eapply (proj1 (Forall_forall _ _) IH c Hc); exact Hs|].
    intros x y (c1 & o1 & H1 & H2). exists c1, o1. split; [by eapply elem_concat|done].
  - cbn [rt_dispatch] in H. destruct (base_filter _ _ && _); [|done]. destruct (find_proxy _ _ _ _) as [t|]; [|done].
    destruct (rt_dispatch _ c _ st) as [s1|] eqn:E.
    + inversion H; subst. by apply IH in E.
    + inversion H; subst. done.
  - cbn [rt_dispatch] in H. destruct (base_filter _ _ && _); [|done]. by apply IH in H.
Qed.
End rt.
