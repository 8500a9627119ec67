(** Lemmas for the schema properties. *)
From Verif Require Import Prelude CommonTypes Utf8 Utf8Proofs ScModel ScSpec.

(** ** Names *)
Lemma space_blank c : ascii_space c = true <-> blank c.
Proof. unfold ascii_space, blank. lia. Qed.
Lemma lower_eq c : to_lower c = lower c. Proof. reflexivity. Qed.
Lemma lower_blank c : blank (lower c) <-> blank c.
Proof. unfold blank, lower. destruct ((65 <=? c) && (c <=? 90)) eqn:E; lia. Qed.
Lemma lower_ascii c : lower c < 128 -> c < 128.
Proof. unfold lower. destruct ((65 <=? c) && (c <=? 90)) eqn:E; lia. Qed.
Lemma ascii_lower c : c < 128 -> lower c < 128.
Proof. unfold lower. destruct ((65 <=? c) && (c <=? 90)) eqn:E; lia. Qed.

Lemma trim_start_split s : exists pre, s = pre ++ trim_start s /\ Forall blank pre
  /\ forall c t, trim_start s = c :: t -> ~ blank c.
Proof.
  induction s as [|c s (pre & E & Hp & Hh)]; [by exists []|]. cbn [trim_start].
  destruct (ascii_space c) eqn:Es.
  - exists (c :: pre). split; [by rewrite <- app_comm_cons, <- E|]. split; [|done]. constructor; [by apply space_blank|done].
  - exists []. split; [done|]. split; [done|]. intros x t [= <- <-] H. apply space_blank in H. congruence.
Qed.
Lemma trim_start_blank pre t : Forall blank pre -> trim_start (pre ++ t) = trim_start t.
Proof. induction 1 as [|c pre Hc _ IH]; [done|]. cbn. apply space_blank in Hc. by rewrite Hc. Qed.
Lemma trim_start_plain c t : ~ blank c -> trim_start (c :: t) = c :: t.
Proof. intros H. cbn. destruct (ascii_space c) eqn:E; [|done]. by apply space_blank in E. Qed.

Lemma trim_split s : exists pre post, s = pre ++ trim s ++ post /\ Forall blank pre /\ Forall blank post.
Proof.
  destruct (trim_start_split s) as (pre & E1 & Hp & _). unfold trim.
  destruct (trim_start_split (rev (trim_start s))) as (post & E2 & Hq & _).
  exists pre, (rev post). split; [|split; [done|]].
  - rewrite E1 at 1. f_equal. rewrite <- rev_app_distr, <- E2. by rewrite rev_involutive.
  - apply Forall_forall. intros c Hc. rewrite Forall_forall in Hq. apply Hq.
    apply elem_of_list_In. apply elem_of_list_In in Hc. by apply in_rev.
Qed.
Lemma trim_core pre t post : Forall blank pre -> Forall blank post ->
  (forall c, head t = Some c -> ~ blank c) -> (forall c, last t = Some c -> ~ blank c) -> t <> [] -> trim (pre ++ t ++ post) = t.
Proof.
  intros Hp Hq Hh Hl Hne. unfold trim. rewrite trim_start_blank by done.
  destruct t as [|c t]; [done|]. cbn [app]. rewrite trim_start_plain by (by apply Hh).
  rewrite app_comm_cons, rev_app_distr, trim_start_blank.
  2:{ apply Forall_forall. intros x Hx. rewrite Forall_forall in Hq. apply Hq. apply elem_of_list_In. apply elem_of_list_In in Hx. by apply in_rev. }
  destruct (rev (c :: t)) as [|y l] eqn:E.
  - apply (f_equal (@rev N)) in E. rewrite rev_involutive in E. done.
  - rewrite trim_start_plain.
    + rewrite <- E. apply rev_involutive.
    + apply Hl. apply (f_equal (@rev N)) in E. rewrite rev_involutive in E. rewrite E. cbn. by rewrite last_snoc.
Qed.

Definition name_char (c : N) : bool := is_ascii_alphabetic c || (c =? 45) || (c =? SEPARATOR_CHAR).

Lemma lower_fix c : lower (lower c) = lower c.
Proof. unfold lower. destruct ((65 <=? c) && (c <=? 90)) eqn:E; [|by rewrite E]. replace (_ && _) with false by lia. done. Qed.
Lemma name_char_lower c : name_char (lower c) = true -> (97 <= lower c <= 122 \/ lower c = 45) \/ lower c = 46.
Proof.
  unfold name_char, is_ascii_alphabetic, lower, SEPARATOR_CHAR. destruct ((65 <=? c) && (c <=? 90)) eqn:E; lia.
Qed.

Lemma word_iff w : Forall (fun c => 97 <= c <= 122 \/ c = 45) w ->
  word w <-> starts_with_dash w || ends_with_dash w = false.
Proof.
  intros H. unfold word, starts_with_dash, ends_with_dash. split.
  - intros (_ & H1 & H2). apply orb_false_intro.
    + destruct w as [|c w]; [done|]. cbn in H1. apply N.eqb_neq. congruence.
    + destruct (last w) as [c|]; [|done]. apply N.eqb_neq. congruence.
  - intros E. apply orb_false_elim in E as [E1 E2]. split; [done|]. split.
    + destruct w as [|c w]; [done|]. cbn. intros [= ->]. done.
    + destruct (last w) as [c|]; [|done]. intros [= ->]. done.
Qed.
Lemma word_plain w c : word w -> c ∈ w -> 97 <= c <= 122 \/ c = 45.
Proof. intros (H & _) Hc. rewrite Forall_forall in H. by apply H. Qed.
Lemma word_nodot w : word w -> 46 ∉ w.
Proof. intros H Hc. pose proof (word_plain _ _ H Hc). lia. Qed.

Lemma split_on_join c s : forall p ps, split_on c s = p :: ps -> s = p ++ flat_map (fun q => c :: q) ps /\ Forall (fun q => c ∉ q) (p :: ps).
Proof.
  induction s as [|x s IH]; intros p ps H; cbn [split_on] in H.
  - injection H as <- <-. split; [done|]. repeat constructor. apply not_elem_of_nil.
  - destruct (N.eqb_spec x c) as [->|Hx].
    + injection H as <- <-. destruct (split_on c s) as [|q qs] eqn:E.
      * destruct s as [|y s]; cbn in E; [done|]. destruct (y =? c); [done|]. by destruct (split_on c s).
      * destruct (IH _ _ eq_refl) as (Es & Hf). split; [cbn; by rewrite <- Es|]. constructor; [apply not_elem_of_nil|done].
    + destruct (split_on c s) as [|q qs] eqn:E.
      * destruct s as [|y s]; cbn in E; [done|]. destruct (y =? c); [done|]. by destruct (split_on c s).
      * injection H as <- <-. destruct (IH _ _ eq_refl) as (Es & Hf). split; [cbn; by rewrite <- Es|].
        apply Forall_cons in Hf as [Hq Hf]. constructor; [|done]. apply not_elem_of_cons. split; [congruence|done].
Qed.

(** The canonical text of a payload. *)
Lemma parse_text p t : t <> [] -> Forall (fun c => (97 <= c <= 122 \/ c = 45) \/ c = 46) t ->
  (exists s0, from_utf8 p = Some s0 /\ forallb (fun c => c <? 128) s0 = true /\ trim (map to_lower s0) = t) <-> spells p t.
Proof.
  intros Hne Ht. split.
  - intros (s0 & Hu & Ha & E). apply utf8_from in Hu as (_ & Hu).
    assert (Hasc : Forall (fun c => c < 128) s0).
    { apply Forall_forall. intros c Hc. rewrite forallb_forall in Ha. apply elem_of_list_In in Hc. specialize (Ha c Hc). lia. }
    rewrite utf8_ascii in Hu by done. subst p.
    destruct (trim_split (map to_lower s0)) as (pre & post & E2 & Hp & Hq). rewrite E in E2.
    apply map_eq_app in E2 as (a & bc & -> & Ea & E2). apply map_eq_app in E2 as (b & c & -> & Eb & Ec).
    assert (Hbl : forall l l', map to_lower l = l' -> Forall blank l' -> Forall blank l).
    { intros l l' <- H. apply Forall_forall. intros x Hx. rewrite Forall_forall in H.
      apply lower_blank, H, elem_of_list_fmap. by exists x. }
    exists a, b, c. split; [done|]. split; [by eapply Hbl|]. split; [by eapply Hbl|done].
  - intros (a & b & c & -> & Ha & Hc & Eb).
    assert (Hasc : Forall (fun x => x < 128) (a ++ b ++ c)).
    { assert (Hb : forall l, Forall blank l -> Forall (fun x => x < 128) l).
      { intros l H. eapply Forall_impl; [exact H|]. unfold blank. lia. }
      apply Forall_app. split; [by apply Hb|]. apply Forall_app. split; [|by apply Hb].
      apply Forall_forall. intros x Hx. apply lower_ascii. rewrite Forall_forall in Ht.
      assert (lower x ∈ t) as Hin by (rewrite <- Eb; apply elem_of_list_fmap; by exists x). specialize (Ht _ Hin). lia. }
    exists (a ++ b ++ c). split.
    { rewrite <- (utf8_ascii _ Hasc) at 1. apply from_utf8_utf8. eapply Forall_impl; [exact Hasc|]. unfold scalar. lia. }
    split.
    { apply forallb_forall. intros x Hx. rewrite Forall_forall in Hasc. apply elem_of_list_In in Hx. specialize (Hasc x Hx). lia. }
    rewrite !map_app. change (map to_lower b) with (map lower b). rewrite Eb. apply trim_core.
    + apply Forall_forall. intros x Hx. apply elem_of_list_fmap in Hx as (y & -> & Hy). rewrite Forall_forall in Ha. by apply lower_blank, Ha.
    + apply Forall_forall. intros x Hx. apply elem_of_list_fmap in Hx as (y & -> & Hy). rewrite Forall_forall in Hc. by apply lower_blank, Hc.
    + intros x Hx. rewrite Forall_forall in Ht. assert (x ∈ t) as Hin by (destruct t; [done|]; injection Hx as ->; left).
      specialize (Ht _ Hin). unfold blank. lia.
    + intros x Hx. rewrite Forall_forall in Ht. assert (x ∈ t) as Hin.
      { apply last_Some in Hx as (l & ->). apply elem_of_app. right. by left. }
      specialize (Ht _ Hin). unfold blank. lia.
    + done.
Qed.

Lemma check_namespace_ok ns : Forall (fun c => 97 <= c <= 122 \/ c = 45) ns ->
  check_namespace ns = Ok tt <-> word ns /\ 3 <= len ns <= 30.
Proof.
  intros H. rewrite (word_iff ns H). unfold check_namespace, NAMESPACE_MAX, NAMESPACE_MIN, SCHEMA_NAME_BYTES_MAX, DESCRIPTOR_MIN.
  change (32 - (1 + 1)) with 30.
  destruct (N.leb_spec (len ns) 30); [|split; [done|lia]].
  destruct (N.leb_spec 3 (len ns)); [|split; [done|lia]].
  destruct (starts_with_dash ns || ends_with_dash ns); cbn [negb]; [by split; [|intros [? _]]|by split; [split; [|lia]|]].
Qed.
Lemma check_descriptor_ok ns : Forall (fun c => 97 <= c <= 122 \/ c = 45) ns ->
  check_descriptor ns = Ok tt <-> word ns /\ 1 <= len ns <= 28.
Proof.
  intros H. rewrite (word_iff ns H). unfold check_descriptor, DESCRIPTOR_MAX, NAMESPACE_MIN, SCHEMA_NAME_BYTES_MAX, DESCRIPTOR_MIN.
  change (32 - (3 + 1)) with 28.
  destruct (N.leb_spec (len ns) 28); [|split; [done|lia]].
  destruct (N.leb_spec 1 (len ns)); [|split; [done|lia]].
  destruct (starts_with_dash ns || ends_with_dash ns); cbn [negb]; [by split; [|intros [? _]]|by split; [split; [|lia]|]].
Qed.

Lemma full_name_chars n : canonical n -> Forall (fun c => (97 <= c <= 122 \/ c = 45) \/ c = 46) (full_name n).
Proof.
  intros ((H1 & _) & _ & (H2 & _) & _). unfold full_name. apply Forall_app. split; [eapply Forall_impl; [exact H1|]; naive_solver|].
  apply Forall_app. split; [repeat constructor; lia|]. eapply Forall_impl; [exact H2|]. naive_solver.
Qed.
Lemma full_name_ne n : full_name n <> [].
Proof. unfold full_name. by destruct (nm_namespace n). Qed.
Lemma split_full n : canonical n -> split_on 46 (full_name n) = [nm_namespace n; nm_descriptor n].
Proof.
  intros (H1 & _ & H2 & _). unfold full_name. cbn [app]. rewrite split_on_app by (by apply word_nodot).
  by rewrite split_on_plain by (by apply word_nodot).
Qed.
Lemma full_name_inj n n' : canonical n -> canonical n' -> full_name n = full_name n' -> n = n'.
Proof.
  intros H H' E. pose proof (split_full _ H) as S. rewrite E, (split_full _ H') in S. destruct n, n'. cbn in S. congruence.
Qed.
Lemma spells_len p t : spells p t -> len t <= len p.
Proof.
  intros (a & b & c & -> & _ & _ & <-). rewrite !len_app. unfold len. rewrite map_length. lia.
Qed.
Lemma forallb_name t : Forall (fun c => (97 <= c <= 122 \/ c = 45) \/ c = 46) t -> forallb name_char t = true.
Proof.
  intros H. apply forallb_forall. intros c Hc. rewrite Forall_forall in H. apply elem_of_list_In in Hc. specialize (H c Hc).
  unfold name_char, is_ascii_alphabetic, SEPARATOR_CHAR. lia.
Qed.
Lemma name_forallb s : forallb name_char (trim (map to_lower s)) = true -> Forall (fun c => (97 <= c <= 122 \/ c = 45) \/ c = 46) (trim (map to_lower s)).
Proof.
  intros H. apply Forall_forall. intros c Hc. rewrite forallb_forall in H.
  assert (Hl : exists y, c = lower y).
  { destruct (trim_split (map to_lower s)) as (pre & post & E & _). assert (c ∈ map to_lower s) as Hin.
    { rewrite E. apply elem_of_app. right. apply elem_of_app. by left. }
    apply elem_of_list_fmap in Hin as (y & -> & _). by exists y. }
  destruct Hl as (y & ->). apply name_char_lower, H. by apply elem_of_list_In.
Qed.
Lemma forall_plain t : 46 ∉ t -> Forall (fun c => (97 <= c <= 122 \/ c = 45) \/ c = 46) t -> Forall (fun c => 97 <= c <= 122 \/ c = 45) t.
Proof. intros Hn. rewrite !Forall_forall. intros H c Hc. destruct (H c Hc) as [H0| ->]; done. Qed.

Lemma parse_strict p n : len p <= 32 -> try_parse p true = Ok n <-> canonical n /\ spells p (full_name n).
Proof.
  intros Hlen. split.
  - unfold try_parse. destruct (from_utf8 p) as [s0|] eqn:Eu; [|done]. destruct (forallb _ s0) eqn:Ea; [|done].
    destruct (forallb _ (trim _)) eqn:Ec; [|done]. apply name_forallb in Ec.
    destruct (split_on _ _) as [|ns [|d [|]]] eqn:Es; [done|done| |done].
    apply split_on_join in Es as (Et & Hnd). cbn [flat_map] in Et. rewrite app_nil_r in Et.
    rewrite Et in Ec. apply Forall_app in Ec as [H1 H2]. apply Forall_cons in H2 as [_ H2].
    apply Forall_cons in Hnd as [Hn1 Hnd]. apply Forall_cons in Hnd as [Hn2 _].
    apply forall_plain in H1; [|done]. apply forall_plain in H2; [|done].
    destruct (check_namespace ns) as [[]|] eqn:E1; [|done]. destruct (check_descriptor d) as [[]|] eqn:E2; [|done].
    intros H; injection H as <-. apply check_namespace_ok in E1 as (W1 & L1); [|done]. apply check_descriptor_ok in E2 as (W2 & L2); [|done].
    assert (Hc : canonical {| nm_namespace := ns; nm_descriptor := d |}) by (unfold canonical; cbn; repeat (split; [done||lia|]); lia).
    split; [done|]. apply parse_text; [apply full_name_ne|by apply full_name_chars|]. exists s0. done.
  - intros (Hc & Hs). pose proof (spells_len _ _ Hs) as Hl.
    assert (Hl2 : len (nm_namespace n) + 1 + len (nm_descriptor n) <= 32).
    { unfold full_name in Hl. rewrite !len_app in Hl. change (len [46]) with 1 in Hl. lia. }
    apply parse_text in Hs as (s0 & Eu & Ea & Et); [|apply full_name_ne|by apply full_name_chars].
    unfold try_parse. rewrite Eu, Ea, Et. pose proof (forallb_name _ (full_name_chars _ Hc)) as Hf. unfold name_char in Hf. rewrite Hf.
    unfold SEPARATOR_CHAR. rewrite split_full by done.
    destruct Hc as (W1 & L1 & W2 & L2).
    rewrite (proj2 (check_namespace_ok _ (proj1 W1))) by (split; [done|lia]).
    rewrite (proj2 (check_descriptor_ok _ (proj1 W2))) by (split; [done|lia]). by destruct n.
Qed.

(** Without a descriptor: a namespace alone. *)
Lemma parse_lax p n : len p <= 32 -> try_parse p false = Ok n <->
  (canonical n /\ spells p (full_name n)) \/ (nm_descriptor n = [] /\ word (nm_namespace n) /\ 3 <= len (nm_namespace n) <= 30 /\ spells p (nm_namespace n)).
Proof.
  intros Hlen. rewrite <- (parse_strict p n Hlen).
  unfold try_parse. destruct (from_utf8 p) as [s0|] eqn:Eu.
  2:{ split; [done|]. intros [|(_ & (W & _) & L & Hs)]; [done|]. apply parse_text in Hs as (s & ? & _); [congruence| |].
      - intros E. rewrite E, len_nil in L. lia.
      - eapply Forall_impl; [exact W|]. naive_solver. }
  destruct (forallb _ s0) eqn:Ea.
  2:{ split; [done|]. intros [|(_ & (W & _) & L & Hs)]; [done|]. apply parse_text in Hs as (s & ? & ? & _); [congruence| |].
      - intros E. rewrite E, len_nil in L. lia.
      - eapply Forall_impl; [exact W|]. naive_solver. }
  assert (Hback : forall ns, word ns -> 3 <= len ns <= 30 -> spells p ns -> trim (map to_lower s0) = ns).
  { intros ns (W & _) L Hs. apply parse_text in Hs as (s & Hs & _ & Et); [congruence| |].
    - intros ->. rewrite len_nil in L. lia.
    - eapply Forall_impl; [exact W|]. naive_solver. }
  destruct (forallb _ (trim _)) eqn:Ec.
  2:{ split; [done|]. intros [|(_ & W & L & Hs)]; [done|]. rewrite (Hback _ W L Hs) in Ec.
      assert (forallb name_char (nm_namespace n) = true); [|unfold name_char in *; congruence].
      apply forallb_name. destruct W as [W _]. eapply Forall_impl; [exact W|]. naive_solver. }
  apply name_forallb in Ec.
  destruct (split_on _ _) as [|ns [|d [|]]] eqn:Es.
  - split; [done|]. intros [|(_ & W & L & Hs)]; [done|]. rewrite (Hback _ W L Hs) in Es.
    unfold SEPARATOR_CHAR in Es. by rewrite split_on_plain in Es by (by apply word_nodot).
  - apply split_on_join in Es as (Et & Hnd). cbn [flat_map] in Et. rewrite app_nil_r in Et. rewrite Et in Ec.
    apply Forall_cons in Hnd as [Hn1 _]. apply forall_plain in Ec; [|done]. cbn [negb].
    destruct (check_namespace ns) as [[]|] eqn:E1.
    + apply check_namespace_ok in E1 as (W1 & L1); [|done]. split.
      * intros [= <-]. right. cbn. split; [done|]. split; [done|]. split; [done|]. apply parse_text.
        -- intros ->. rewrite len_nil in L1. lia.
        -- eapply Forall_impl; [exact Ec|]. naive_solver.
        -- exists s0. done.
      * intros [|(Hd & W & L & Hs)]; [done|]. pose proof (Hback _ W L Hs) as Hb. rewrite Et in Hb. destruct n. cbn in *. by subst.
    + split; [done|]. intros [|(_ & W & L & Hs)]; [done|]. pose proof (Hback _ W L Hs) as Hb. rewrite Et in Hb.
      rewrite (proj2 (check_namespace_ok ns Ec)) in E1; [done|]. by rewrite Hb.
  - split; [by left|]. intros [|(_ & W & L & Hs)]; [done|]. rewrite (Hback _ W L Hs) in Es.
    unfold SEPARATOR_CHAR in Es. by rewrite split_on_plain in Es by (by apply word_nodot).
  - split; [done|]. intros [|(_ & W & L & Hs)]; [done|]. rewrite (Hback _ W L Hs) in Es.
    unfold SEPARATOR_CHAR in Es. by rewrite split_on_plain in Es by (by apply word_nodot).
Qed.

Lemma lower_word w : word w -> map lower w = w.
Proof.
  intros (H & _). induction H as [|c w Hc _ IH]; [done|]. cbn. rewrite IH. f_equal. unfold lower.
  by replace (_ && _) with false by lia.
Qed.
Lemma spells_self n : canonical n -> spells (full_name n) (full_name n).
Proof.
  intros (H1 & _ & H2 & _). exists [], (full_name n), []. split; [by rewrite app_nil_r|]. split; [done|]. split; [done|].
  unfold full_name. rewrite !map_app, (lower_word _ H1), (lower_word _ H2). done.
Qed.
Lemma spells_fun p n n' : len p <= 32 -> canonical n -> canonical n' -> spells p (full_name n) -> spells p (full_name n') -> n = n'.
Proof.
  intros Hl Hc Hc' Hs Hs'. pose proof (proj2 (parse_strict p n Hl) (conj Hc Hs)) as E.
  rewrite (proj2 (parse_strict p n' Hl) (conj Hc' Hs')) in E. congruence.
Qed.
