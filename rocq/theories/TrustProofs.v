(** Proof of property C147. *)
From Verif Require Import Prelude CommonTypes Sums SigModel MsaModel CapModel TrModel StModel HModel ScModel MgModel FeeModel RtModel.
From Verif Require Import MsaSpec StSpec RtSpec LimSpec RtProofs RtProj LeaveSpec LeaveProofs ConsentSpec ConsentProofs TrustSpec.
From Verif Require MsaProofs.

Section trust.
Variable cfg : RtCfg.

(** What a deed does to the keys. *)
Lemma deed_keys c o s s' : plain c -> rt_dispatch cfg c o s = Ok s' ->
  (ms_keys (rs_msa s') = ms_keys (rs_msa s) /\ ms_max (rs_msa s') = ms_max (rs_msa s))
  \/ exists c', c = RMsa c' /\ MsaProofs.key_effect (r_msa cfg) (env_msa s) (rs_msa s) (rs_msa s') (Signed (o_who o)) c'.
Proof.
  intros Hp H. pose proof (leaf_inv _ _ _ _ _ Hp H) as [_ L].
  destruct c as [c|c|c|c|c|c|c|c| | | | | | |]; try done; cbn beta iota in L.
  - destruct L as (x & Hd & ->). right. exists c. split; [done|]. by apply MsaProofs.dispatch_key_effect.
  - destruct L as (x & Hd & ->). by left.
  - destruct L as (x & Hd & ->). by left.
  - destruct L as (x & Hd & ->). by left.
  - destruct L as (x & Hd & ->). by left.
  - destruct c; cbn [cap_dispatch] in L; [| | |done]; apply lift_ok in L as (x & _ & E); injection E as <-; by left.
  - destruct c as [|to sch|wh l|wh]; cbn [time_dispatch] in L; [| |done|].
    + apply lift_ok in L as (x & _ & E); injection E as <-; by left.
    + apply lift_ok in L as (x & _ & E). destruct (match sc_total sch with Some a => _ | None => _ end) as [s1|] eqn:Em; [|done]. injection E as <-.
      destruct (sc_total sch) as [a|]; [|done]. left. by apply transfer_same in Em as [-> _].
    + apply lift_ok in L as (x & _ & E); injection E as <-; by left.
  - destruct c; cbn [bal_dispatch] in L; (left; by apply transfer_same in L as [-> _]).
  - left. by rewrite L.
  - subst. by left.
Qed.

(** A key that a deed puts on an MSA was founded or vouched for. *)
Lemma deed_new c o s s' k m : plain c -> rt_dispatch cfg c o s = Ok s' ->
  ms_max (rs_msa s) <= ms_max (rs_msa s') /\
  (controls (rs_msa s') k m -> controls (rs_msa s) k m
     \/ (m = ms_max (rs_msa s') /\ founded cfg m {| at_ := s; by_ := o_who o; what := c |} k)
     \/ exists okey, vouched cfg m {| at_ := s; by_ := o_who o; what := c |} okey k).
Proof.
  intros Hp H. destruct (deed_keys c o s s' Hp H) as [[Ek Em]|(c' & -> & K)].
  { split; [lia|]. unfold controls. rewrite Ek. by left. }
  unfold controls in *. destruct K as [E1 _ E2 _|key Hk _ _ Em _ _ Ek _ _|who okey op np p _ -> S1 S2 Hc _ Em _ _ Ek _ _|who m0 key _ _ _ _ Em Ek _ _].
  - split; [lia|]. rewrite E1. by left.
  - split; [lia|]. rewrite Ek. intros [[<- <-]|[_ Hc]]%lookup_insert_Some; [|by left]. right. left. split; [done|]. split; [done|].
    destruct Hk as [[[= <-] ->]|(who & proof & pl & [= <-] & -> & Hw & Hs)]; [by left|]. right. exists proof, pl. done.
  - split; [lia|]. rewrite Ek. intros [[<- <-]|[_ Hn]]%lookup_insert_Some; [|by left]. right. right. exists okey, op, np, p. done.
  - split; [lia|]. rewrite Ek. intros [_ Hc]%lookup_delete_Some. by left.
Qed.

(** ** Chains *)
Lemma trusted_more m ds ds' k : trusted cfg m ds k -> trusted cfg m (ds ++ ds') k.
Proof.
  intros H. destruct H as [b g a k H|b g a o k H1 H2]; rewrite <- app_assoc; cbn.
  - by apply by_founding.
  - by eapply by_vouching.
Qed.
Definition chains (ds : list Deed) (s : RtState) : Prop := forall k m, controls (rs_msa s) k m -> trusted cfg m ds k.
Lemma chains_walk s ds s' : walk cfg s ds s' -> forall ds0, chains ds0 s -> chains (ds0 ++ ds) s'.
Proof.
  induction 1 as [s|s s1 ds s' H _ IH|s c o s1 ds s' H1 H2 _ IH]; intros ds0 I.
  - by rewrite app_nil_r.
  - apply IH. destruct H as (_ & _ & _ & _ & Ek & _). intros k m. unfold controls. rewrite Ek. apply I.
  - specialize (IH (ds0 ++ [{| at_ := s; by_ := o_who o; what := c |}])). rewrite <- app_assoc in IH. apply IH.
    intros k m Hk. destruct (deed_new c o s s1 k m H1 H2) as [_ Hn]. destruct (Hn Hk) as [Ho|[[_ Hf]|[okey Hv]]].
    + by apply trusted_more, I.
    + by apply by_founding.
    + eapply by_vouching; [|exact Hv]. destruct Hv as (? & ? & ? & _ & _ & _ & Hc & _). by apply I.
Qed.
Lemma chain_lemma b mm v h k m : relays_from 0 h ->
  controls (rs_msa (rt_run cfg (rt_start b mm v) h)) k m -> trusted cfg m (all_deeds cfg (rt_start b mm v) h) k.
Proof.
  intros Hr. apply (chains_walk _ _ _ (all_walk cfg h (rt_start b mm v) Hr) []). intros k' m' H. unfold controls in H. cbn in H. by rewrite lookup_empty in H.
Qed.

(** ** Ids *)
Definition ids_ok (s : RtState) : Prop := forall k m, controls (rs_msa s) k m -> m <= ms_max (rs_msa s).
Lemma ids_walk s ds s' : walk cfg s ds s' -> ids_ok s -> ids_ok s'.
Proof.
  induction 1 as [s|s s1 ds s' H _ IH|s c o s1 ds s' H1 H2 _ IH]; intros I; [done|apply IH|apply IH].
  - destruct H as (_ & _ & _ & _ & Ek & Em). intros k m. unfold controls. rewrite Ek, Em. apply I.
  - intros k m Hk. destruct (deed_new c o s s1 k m H1 H2) as [Hm Hn]. destruct (Hn Hk) as [Ho|[[-> _]|[okey Hv]]]; [|done|].
    + apply I in Ho. lia.
    + destruct Hv as (? & ? & ? & _ & _ & _ & Hc & _). apply I in Hc. lia.
Qed.
Lemma ids_run b mm v h : relays_from 0 h -> ids_ok (rt_run cfg (rt_start b mm v) h).
Proof.
  intros Hr. apply (ids_walk _ _ _ (all_walk cfg h (rt_start b mm v) Hr)). intros k' m' H. unfold controls in H. cbn in H. by rewrite lookup_empty in H.
Qed.

(** ** Only with my signature *)
Lemma mine_walk m k s ds s' : walk cfg s ds s' -> m <= ms_max (rs_msa s) -> (forall k', controls (rs_msa s) k' m -> k' = k) ->
  (forall k', controls (rs_msa s') k' m -> k' = k) \/ exists g k', g ∈ ds /\ k' <> k /\ vouched cfg m g k k'.
Proof.
  induction 1 as [s|s s1 ds s' H _ IH|s c o s1 ds s' H1 H2 _ IH]; intros Hm I; [by left|..].
  - destruct H as (_ & _ & _ & _ & Ek & Em). apply IH; [lia|]. intros k'. unfold controls. rewrite Ek. apply I.
  - set (g := {| at_ := s; by_ := o_who o; what := c |}).
    assert (D : (forall k', controls (rs_msa s1) k' m -> k' = k) \/ exists k', k' <> k /\ vouched cfg m g k k').
    { destruct (decide (Forall (fun km : N * N => km.2 = m -> km.1 = k) (map_to_list (ms_keys (rs_msa s1))))) as [F|F].
      - left. intros k' Hk. rewrite Forall_forall in F. apply (F (k', m)); [by apply elem_of_map_to_list|done].
      - right. apply not_Forall_Exists in F; [|apply _]. apply Exists_exists in F as ((k' & m') & Hin & Hx).
        apply elem_of_map_to_list in Hin. cbn in Hx. destruct (decide (m' = m)) as [->|]; [|by destruct Hx].
        assert (Hne : k' <> k) by (intros ->; by apply Hx).
        exists k'. split; [done|]. destruct (deed_new c o s s1 k' m H1 H2) as [_ Hn]. destruct (Hn Hin) as [Ho|[[_ [E _]]|[okey Hv]]].
        + by apply I in Ho.
        + cbn [at_] in E. lia.
        + destruct Hv as (op & np & p & E1 & E2 & E3 & Hc & E4). pose proof (I _ Hc) as ->. exists op, np, p. done. }
    destruct D as [D|(k' & Hne & Hv)].
    + destruct IH as [?|(g' & k' & Hg & Hv)]; [|done|by left|right; exists g', k'; split; [by right|done]].
      destruct (deed_new c o s s1 k m H1 H2) as [Hmm _]. lia.
    + right. exists g, k'. split; [by left|done].
Qed.
Lemma mine_lemma b mm v h h' m k : relays_from 0 (h ++ h') ->
  let s := rt_run cfg (rt_start b mm v) h in let s' := rt_run cfg s h' in
  sole_key m s k ->
  (forall k', controls (rs_msa s') k' m -> k' = k) \/ exists g k', g ∈ all_deeds cfg s h' /\ k' <> k /\ vouched cfg m g k k'.
Proof.
  intros Hr s s' Hs. pose proof (ConsentProofs.relays_app 0 h h' Hr) as H1. pose proof (ConsentProofs.relays_run cfg h (rt_start b mm v) h' Hr) as H2. eapply mine_walk.
  - exact (all_walk cfg h' s H2).
  - apply (ids_run b mm v h H1 k m). by apply Hs.
  - intros k'. apply Hs.
Qed.

(** ** Taking it back *)
Lemma take_lemma k m s : free_is_free (r_token_fee cfg) -> controls (rs_msa s) k m ->
  exists h', trip cfg k m s h' /\ new_blocks h' = 0 /\ sole_key m (rt_run cfg s h') k
    /\ ms_deleg (rs_msa (rt_run cfg s h')) = ms_deleg (rs_msa s) /\ rs_h (rt_run cfg s h') = rs_h s.
Proof.
  intros Hf Hk. destruct (delete_all cfg Hf k m _ s eq_refl Hk) as (h' & T & B & C & K & D & Hh). exists h'. split; [done|]. split; [done|].
  split; [|done]. intros k'. split; [|by intros ->]. intros Hk'. destruct (decide (k' = k)) as [|Hne]; [done|].
  pose proof (msum_lookup_le (kbit k m) _ _ _ Hk') as L. fold (kcount k m (rs_msa (rt_run cfg s h'))) in L.
  rewrite C in L. unfold kbit in L. rewrite N.eqb_refl in L. destruct (N.eqb_spec k' k); [done|]. cbn in L. lia.
Qed.
End trust.
