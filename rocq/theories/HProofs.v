(** Proofs about the handles pallet. *)
From Coq Require FinFun.
From Verif Require Import Prelude Scale XxHash Utf8 Utf8Proofs HConfusables HModel HSpec.

Global Arguments confusable : simpl never.
Global Arguments confusables : simpl never.

(** ** The suffix sequence *)
Lemma swap_length l a b : length (swap l a b) = length l.
Proof. unfold swap. by rewrite !insert_length. Qed.

Lemma insert_at (l1 : list N) u v l2 : <[length l1 := v]> (l1 ++ u :: l2) = l1 ++ v :: l2.
Proof. induction l1 as [|x l1 IH]; [done|]. exact (f_equal (cons x) IH). Qed.

Lemma swap_perm_lt (l : list N) i j u v : (i < j)%nat -> l !! i = Some u -> l !! j = Some v -> <[j := u]> (<[i := v]> l) ≡ₚ l.
Proof.
  intros Hij Hu Hv.
  apply elem_of_list_split_length in Hu as (l1 & l2 & -> & ->).
  rewrite lookup_app_r in Hv by lia. destruct (j - length l1)%nat as [|k] eqn:Ek; [lia|].
  cbn in Hv. apply elem_of_list_split_length in Hv as (l3 & l4 & -> & ->).
  rewrite insert_at.
  replace j with (length (l1 ++ v :: l3)) by (rewrite app_length; cbn; lia).
  replace (l1 ++ v :: l3 ++ v :: l4) with ((l1 ++ v :: l3) ++ v :: l4) by (rewrite <- app_assoc; done).
  rewrite insert_at. rewrite <- app_assoc. cbn [app]. apply Permutation_app_head.
  rewrite <- !Permutation_middle. apply perm_swap.
Qed.

Lemma swap_perm l a b : (a < length l)%nat -> (b < length l)%nat -> swap l a b ≡ₚ l.
Proof.
  intros Ha Hb. unfold swap.
  destruct (lookup_lt_is_Some_2 l a Ha) as [x Hx]. destruct (lookup_lt_is_Some_2 l b Hb) as [y Hy].
  rewrite (nth_lookup_Some l a 0 x Hx), (nth_lookup_Some l b 0 y Hy).
  destruct (decide (a = b)) as [->|Hne].
  { assert (x = y) as -> by congruence. rewrite list_insert_insert, list_insert_id by done. done. }
  destruct (decide (a < b)%nat).
  - rewrite (list_insert_commute _ a b) by done. by apply swap_perm_lt.
  - apply swap_perm_lt; [lia|done|done].
Qed.

(** the part of the slice that later turns use *)
Lemma swap_take l k b : (k < length l)%nat -> (b <= k)%nat ->
  take (S k) (swap l k b) = swap (take (S k) l) k b.
Proof.
  intros Hk Hb. unfold swap.
  rewrite !(nth_lookup l), !(nth_lookup (take (S k) l)), !lookup_take by lia.
  assert (Hins : forall i v (m : list N), (i <= k)%nat -> take (S k) (<[i := v]> m) = <[i := v]> (take (S k) m)).
  { intros i v m Hi. apply list_eq. intros p.
    destruct (decide (p < S k)%nat).
    - rewrite lookup_take by done. destruct (decide (p = i)) as [->|].
      + destruct (decide (i < length m)%nat).
        * rewrite !list_lookup_insert; [done|rewrite take_length; lia|done].
        * rewrite list_insert_ge by lia. rewrite (list_insert_ge (take _ _)) by (rewrite take_length; lia).
          by rewrite lookup_take.
      + rewrite !list_lookup_insert_ne by done. by rewrite lookup_take.
    - rewrite !lookup_ge_None_2; [done|rewrite insert_length, take_length; lia|rewrite take_length; lia]. }
  rewrite !Hins by lia. done.
Qed.

Lemma shuffle_perm r mn k : rng_ok r -> mn + N.of_nat k <= u16_max -> forall st l, (k <= length l)%nat -> shuffle r mn k st l ≡ₚ take k l.
Proof.
  intros Hr. induction k as [|k IH]; intros Hm st l Hk; [done|]. cbn [shuffle].
  unfold u16_max in Hm.
  assert (Hw : wrap_add u16_max (mn + N.of_nat k) 1 = mn + N.of_nat k + 1).
  { unfold wrap_add, u16_max. rewrite N.mod_small; lia. }
  rewrite Hw. pose proof (Hr st mn (mn + N.of_nat k + 1) ltac:(lia)) as Hd.
  destruct (rng_range r st mn (mn + N.of_nat k + 1)) as [d st'] eqn:E. cbn [fst] in Hd.
  rewrite N.mod_small by lia.
  set (j := N.to_nat (d - mn)). assert (Hj : (j <= k)%nat) by lia.
  rewrite IH by (rewrite ?swap_length; unfold u16_max; lia).
  assert (Hlt : (k < length (swap l k j))%nat) by (rewrite swap_length; lia).
  destruct (lookup_lt_is_Some_2 _ _ Hlt) as [x Hx].
  rewrite (nth_lookup_Some _ _ 0 x Hx).
  rewrite (Permutation_cons_append _ x). rewrite <- (take_S_r _ _ _ Hx).
  rewrite swap_take by lia. apply swap_perm; rewrite take_length; lia.
Qed.

Lemma suffixes_perm r mn mx c : rng_ok r -> mx < u16_max ->
  generate_unique_suffixes r mn mx c ≡ₚ map (fun k => mn + N.of_nat k) (seq 0 (range_size mn mx)).
Proof.
  intros Hr Hm. unfold generate_unique_suffixes. unfold range_size, u16_max in *.
  destruct (N.ltb_spec mx mn).
  { replace (N.to_nat (mx + 1 - mn)) with 0%nat by lia. done. }
  rewrite shuffle_perm; [|done|unfold u16_max; lia|by rewrite map_length, seq_length].
  rewrite take_ge; [done|]. by rewrite map_length, seq_length.
Qed.
Lemma suffixes_nodup r mn mx c : rng_ok r -> mx < u16_max -> NoDup (generate_unique_suffixes r mn mx c).
Proof.
  intros Hr Hm. rewrite suffixes_perm by done. apply NoDup_ListNoDup, FinFun.Injective_map_NoDup.
  - intros a b. lia.
  - apply seq_NoDup.
Qed.
Lemma suffixes_elem r mn mx c x : rng_ok r -> mx < u16_max ->
  x ∈ generate_unique_suffixes r mn mx c <-> mn <= x <= mx.
Proof.
  intros Hr Hm. rewrite suffixes_perm by done. unfold range_size. rewrite elem_of_list_In, in_map_iff. split.
  - intros (k & <- & H). apply in_seq in H. lia.
  - intros H. exists (N.to_nat (x - mn)). split; [lia|]. apply in_seq. lia.
Qed.
Lemma suffixes_length r mn mx c : rng_ok r -> mx < u16_max ->
  length (generate_unique_suffixes r mn mx c) = range_size mn mx.
Proof. intros Hr Hm. rewrite suffixes_perm by done. by rewrite map_length, seq_length. Qed.

(** the runtime's generator *)
Lemma pcg_out_lt st : pcg_out st < 4294967296.
Proof.
  unfold pcg_out. change u32_max with (N.ones 32). rewrite !N.land_ones.
  set (x := _ mod 2 ^ 32). assert (Hx : x < 2 ^ 32) by (apply N.mod_lt; discriminate).
  set (y := N.shiftl x _ mod 2 ^ 32). assert (Hy : y < 2 ^ 32) by (apply N.mod_lt; discriminate).
  change 4294967296 with (2 ^ 32).
  assert (Hz : N.shiftr x (N.shiftr st 59) < 2 ^ 32).
  { rewrite N.shiftr_div_pow2. eapply N.le_lt_trans; [|exact Hx]. apply N.div_le_upper_bound.
    - apply N.pow_nonzero. lia.
    - assert (2 ^ N.shiftr st 59 <> 0) by (apply N.pow_nonzero; lia). nia. }
  destruct (N.eq_dec (N.lor (N.shiftr x (N.shiftr st 59)) y) 0) as [->|Hne]; [done|].
  apply N.log2_lt_pow2; [lia|]. rewrite N.log2_lor.
  apply N.max_lub_lt.
  - destruct (N.eq_dec (N.shiftr x (N.shiftr st 59)) 0) as [->|]; [done|]. apply N.log2_lt_pow2; lia.
  - destruct (N.eq_dec y 0) as [->|]; [done|]. apply N.log2_lt_pow2; lia.
Qed.
Lemma pcg_reject_lt fuel : forall st k t m, m < 4294967296 * k -> fst (pcg_reject fuel st k t m) < 4294967296 * k.
Proof.
  induction fuel as [|fuel IH]; intros st k t m Hm; cbn [pcg_reject]; [done|].
  destruct (_ <? _); [|done]. apply IH. pose proof (pcg_out_lt st). nia.
Qed.
Lemma rand32_ok : rng_ok rand32.
Proof.
  intros st lo hi Hlt. unfold rand32. cbn [rng_range]. unfold pcg_range.
  pose proof (pcg_out_lt st) as Ho.
  assert (Hm : pcg_out st * (hi - lo) < 4294967296 * (hi - lo)) by nia.
  match goal with |- context [let (_, _) := ?x in _] => assert (Hx : fst x < 4294967296 * (hi - lo)); [|destruct x as [m' st']] end.
  { destruct (_ <? _); [|done]. by apply pcg_reject_lt. }
  cbn [fst] in *. rewrite N.shiftr_div_pow2. change (2 ^ 32) with 4294967296.
  assert (m' / 4294967296 < hi - lo) by (apply N.div_lt_upper_bound; lia). lia.
Qed.

(** ** Display handles *)
Lemma from_display s x : Forall scalar s -> x <= u16_max ->
  from_utf8 (display (utf8 s) x) = Some (s ++ [46] ++ digits x).
Proof.
  intros Hs Hx. unfold display. rewrite from_utf8_app by done.
  destruct (digits_spec x Hx) as (Hd & _ & _).
  assert (Ha : Forall (fun c => c < 128) ([46] ++ digits x)).
  { constructor; [lia|]. eapply Forall_impl; [exact Hd|]. unfold is_digit. intros; cbn in *; lia. }
  rewrite <- (utf8_ascii _ Ha) at 1. rewrite from_utf8_utf8; [done|].
  eapply Forall_impl; [exact Ha|]. unfold scalar. intros; cbn in *; lia.
Qed.
Lemma split_display s x : 46 ∉ s -> x <= u16_max -> split_display_name (s ++ [46] ++ digits x) = Some (s, x).
Proof.
  intros Hs Hx. destruct (digits_spec x Hx) as (Hd & _ & _). unfold split_display_name, HANDLE_DELIMITER.
  cbn [app]. rewrite split_on_app by done. rewrite split_on_plain.
  - by rewrite parse_digits_of.
  - intros Hin. rewrite Forall_forall in Hd. apply Hd in Hin. unfold is_digit in Hin. lia.
Qed.
Lemma parts_display s x : Forall scalar s -> 46 ∉ s -> x <= u16_max -> parts (display (utf8 s) x) = Some (s, x).
Proof. intros. unfold parts. rewrite from_display by done. by apply split_display. Qed.

Lemma display_inj s x s' x' : Forall scalar s -> 46 ∉ s -> x <= u16_max -> Forall scalar s' -> 46 ∉ s' -> x' <= u16_max ->
  display (utf8 s) x = display (utf8 s') x' -> s = s' /\ x = x'.
Proof.
  intros H1 H2 H3 H1' H2' H3' H. pose proof (parts_display s x H1 H2 H3) as Hp.
  rewrite H, parts_display in Hp by done. by injection Hp as -> ->.
Qed.

Section proofs.
Variable cfg : HCfg.
Notation form := (form cfg).
Notation budget := (budget cfg).
Notation acceptable := (acceptable cfg).
Notation used := (used cfg).
Notation sequence := (sequence cfg).

Lemma canonical_base_eq s : canonical_base cfg s = (form s, budget s).
Proof. reflexivity. Qed.

Lemma acceptable_iff base s :
  acceptable base s <->
  (validate_base_handle base = Ok s /\ validate_supported (form s) = Ok tt /\ validate_canonical_length (form s) = Ok tt).
Proof.
  unfold acceptable, validate_base_handle, validate_supported, validate_canonical_length, consists_of_supported,
    is_reserved_handle, contains_blocked_characters, HANDLE_CHARS_MIN, HANDLE_CHARS_MAX. split.
  - intros (-> & H1 & H2 & H3 & H4 & H5).
    replace (_ && _) with true by lia. rewrite bool_decide_eq_false_2 by done. cbn [negb].
    replace (existsb _ s) with false; [cbn [negb]|].
    2:{ symmetry. destruct (existsb _ s) eqn:E; [|done]. apply existsb_exists in E as (c & Hc & Hb).
        apply bool_decide_eq_true in Hb. rewrite Forall_forall in H3. by apply H3 in Hb; [|apply elem_of_list_In]. }
    split; [done|]. split.
    + replace (forallb _ _) with true; [done|]. symmetry. apply forallb_forall. intros c Hc.
      rewrite Forall_forall in H5. apply H5. by apply elem_of_list_In.
    + by replace (_ && _) with true by lia.
  - intros (H1 & H2 & H3). destruct (from_utf8 base) as [s'|]; [|done].
    destruct (_ && _) eqn:E1 in H1; [|done].
    destruct (bool_decide (s' ∈ reserved_words)) eqn:E2; cbn [negb] in H1; [done|]. apply bool_decide_eq_false in E2.
    destruct (existsb _ s') eqn:E3; cbn [negb] in H1; [done|]. injection H1 as ->.
    split; [done|]. split; [lia|]. split; [done|]. split; [|split].
    + apply Forall_forall. intros c Hc Hb.
      assert (existsb (fun c => bool_decide (c ∈ blocked_characters)) s = true); [|congruence].
      apply existsb_exists. exists c. split; [by apply elem_of_list_In|]. by apply bool_decide_eq_true.
    + destruct (_ && _) eqn:E4 in H3; [lia|done].
    + destruct (forallb _ _) eqn:E4; [|done]. rewrite forallb_forall in E4.
      apply Forall_forall. intros c Hc. apply E4. by apply elem_of_list_In.
Qed.

Lemma acceptable_scalar base s : acceptable base s -> Forall scalar s /\ utf8 s = base /\ 46 ∉ s.
Proof.
  intros (H & _ & _ & Hb & _). apply utf8_from in H as [H1 H2]. split; [done|]. split; [done|].
  intros Hin. rewrite Forall_forall in Hb. apply Hb in Hin. apply Hin. unfold blocked_characters.
  repeat first [by left | right].
Qed.

(** The result of a claim. *)
Definition claim_result (st : HState) (m : N) (s : list N) (exp x : N) (i : N) : HState :=
  {| hs_owner := <[(budget s, x) := m]> (hs_owner st);
     hs_name := <[m := (display (utf8 s) x, exp)]> (hs_name st);
     hs_index := <[budget s := (i, h_min cfg)]> (hs_index st);
     hs_events := hs_events st |}.

Lemma do_claim_ok st m p st' d :
  rng_ok (h_rng cfg) -> range_ok cfg -> len (hp_base p) <= 32 ->
  do_claim cfg st m p = Ok (st', d) <->
  exists s i x, hs_name st !! m = None /\ acceptable (hp_base p) s
    /\ next_suffix_index cfg st (budget s) = Ok i /\ sequence s !! N.to_nat i = Some x
    /\ st' = claim_result st m s (hp_exp p) x i /\ d = display (hp_base p) x.
Proof.
  intros Hr [Hmn Hmx] Hlen. unfold do_claim.
  destruct (hs_name st !! m) eqn:En.
  { split; [done|]. intros (s & i & x & ? & _). done. }
  destruct (validate_base_handle (hp_base p)) as [s|] eqn:Ev.
  2:{ split; [done|]. intros (s & i & x & _ & Ha & _). apply acceptable_iff in Ha as [Ha _]. congruence. }
  rewrite canonical_base_eq. destruct (validate_supported (form s)) as [[]|] eqn:Es.
  2:{ split; [done|]. intros (s' & i & x & _ & Ha & _). apply acceptable_iff in Ha as (Ha & Hb & _). congruence. }
  destruct (validate_canonical_length (form s)) as [[]|] eqn:El.
  2:{ split; [done|]. intros (s' & i & x & _ & Ha & _). apply acceptable_iff in Ha as (Ha & Hb & Hc). congruence. }
  assert (Ha : acceptable (hp_base p) s) by (apply acceptable_iff; auto).
  assert (Hs' : forall s', acceptable (hp_base p) s' -> s' = s).
  { intros s' Hs'. apply acceptable_iff in Hs' as (Hs' & _). congruence. }
  destruct (next_suffix_index cfg st (budget s)) as [i|] eqn:Ei.
  2:{ split; [done|]. intros (s' & i & x & _ & Ha' & Hi & _). apply Hs' in Ha' as ->. congruence. }
  unfold generate_suffix. fold (sequence s). destruct (sequence s !! N.to_nat i) as [x|] eqn:Ex.
  2:{ split; [done|]. intros (s' & i' & x & _ & Ha' & Hi & Hx & _). apply Hs' in Ha' as ->. congruence. }
  destruct (acceptable_scalar _ _ Ha) as (Hsc & Hu & Hdot).
  unfold build_full_display_handle. rewrite Hu. fold (display (hp_base p) x).
  assert (Hxr : x <= u16_max).
  { apply elem_of_list_lookup_2 in Ex. apply suffixes_elem in Ex; [lia|done|done]. }
  rewrite (proj2 (N.leb_le _ _)).
  2:{ unfold display. rewrite !len_app. destruct (digits_spec x Hxr) as (_ & _ & Hl).
      unfold HANDLE_BYTES_MAX, SUFFIX_MAX_DIGITS. unfold len at 2 3. cbn [length]. lia. }
  change (hp_base p ++ [HANDLE_DELIMITER] ++ digits x) with (display (hp_base p) x).
  split.
  - intros H. injection H as <- <-. exists s, i, x. unfold claim_result. rewrite Hu. auto 10.
  - intros (s' & i' & x' & _ & Ha' & Hi & Hx & -> & ->). apply Hs' in Ha' as ->.
    assert (i' = i) as -> by congruence. assert (x' = x) as -> by congruence.
    unfold claim_result. by rewrite Hu.
Qed.

(** ** The invariant *)
Definition wf_display (d : list N) (s : list N) (x : N) : Prop :=
  d = display (utf8 s) x /\ Forall scalar s /\ 46 ∉ s /\ h_min cfg <= x <= h_max cfg.

Lemma wf_parts d s x : range_ok cfg -> wf_display d s x -> parts d = Some (s, x).
Proof. intros [_ Hm] (-> & H1 & H2 & H3). apply parts_display; [done|done|lia]. Qed.

Record hinv (st : HState) : Prop := {
  inv_name : forall m d e, hs_name st !! m = Some (d, e) -> (m, d) ∈ claimed st;
  inv_seq : forall l1 m d l2, claimed st = l1 ++ (m, d) :: l2 ->
    exists base s x, wf_display d s x /\ acceptable base s /\ sequence s !! used (budget s) l1 = Some x;
  inv_announced : forall m, fst <$> hs_name st !! m = announced m (hs_events st);
  inv_sound : forall b x m, hs_owner st !! (b, x) = Some m ->
    exists d e s, hs_name st !! m = Some (d, e) /\ parts d = Some (s, x) /\ budget s = b;
  inv_complete : forall m d e s x, hs_name st !! m = Some (d, e) -> parts d = Some (s, x) ->
    len (utf8 (form s)) <= 32 -> hs_owner st !! (budget s, x) = Some m;
  inv_index : forall b, hs_index st !! b =
    match used b (claimed st) with O => None | S n => Some (N.of_nat n, h_min cfg) end
}.

Lemma used_app b l1 l2 : used b (l1 ++ l2) = (used b l1 + used b l2)%nat.
Proof. unfold HSpec.used. by rewrite List.filter_app, app_length. Qed.
Lemma used_one b m d s x : parts d = Some (s, x) -> used b [(m, d)] = if bool_decide (budget s = b) then 1%nat else 0%nat.
Proof. intros H. unfold HSpec.used. cbn [List.filter snd]. rewrite H. by destruct (bool_decide _). Qed.

Lemma claimed_emit st m d : claimed (emit st (HandleClaimed m d)) = claimed st ++ [(m, d)].
Proof. unfold claimed, emit. cbn [hs_events]. by rewrite flat_map_app. Qed.
Lemma claimed_emit_retired st m d : claimed (emit st (HandleRetired m d)) = claimed st.
Proof. unfold claimed, emit. cbn [hs_events]. rewrite flat_map_app. cbn. by rewrite app_nil_r. Qed.

Lemma used_bound st b : rng_ok (h_rng cfg) -> range_ok cfg -> hinv st -> (used b (claimed st) <= range_size (h_min cfg) (h_max cfg))%nat.
Proof.
  intros Hr [Hmn Hmx] I.
  assert (H : forall l1 l2, claimed st = l1 ++ l2 -> (used b l1 <= range_size (h_min cfg) (h_max cfg))%nat).
  { induction l1 as [|[m d] l1 IH] using rev_ind; intros l2 H; [cbn; lia|].
    rewrite <- app_assoc in H. pose proof (IH _ H) as H1.
    destruct (inv_seq _ I _ _ _ _ H) as (base & s & x & Hd & _ & Hx).
    rewrite used_app, (used_one b m d s x) by (by apply wf_parts).
    case_bool_decide; [|lia]. subst b.
    apply lookup_lt_Some in Hx. unfold HSpec.sequence in Hx; rewrite suffixes_length in Hx by done. lia. }
  apply (H _ []). by rewrite app_nil_r.
Qed.

Lemma next_index_eq st s : rng_ok (h_rng cfg) -> range_ok cfg -> hinv st ->
  next_suffix_index cfg st (budget s) = Ok (N.of_nat (used (budget s) (claimed st))).
Proof.
  intros Hr Hm I. unfold next_suffix_index. rewrite (inv_index _ I).
  pose proof (used_bound st (budget s) Hr Hm I) as Hb. destruct Hm as [Hmn Hmx].
  destruct (used (budget s) (claimed st)) as [|n]; [done|].
  rewrite N.eqb_refl. cbn [negb]. unfold chk_add. unfold range_size, u16_max in *.
  rewrite (proj2 (N.leb_le _ _)) by lia. f_equal. lia.
Qed.

Lemma genesis_inv : hinv h_genesis.
Proof.
  split.
  - intros m d e H. cbn in H. by rewrite lookup_empty in H.
  - intros l1 m d l2 H. cbn in H. by destruct l1.
  - intros m. cbn. by rewrite lookup_empty.
  - intros b x m H. cbn in H. by rewrite lookup_empty in H.
  - intros m d e s x H. cbn in H. by rewrite lookup_empty in H.
  - intros b. cbn. by rewrite lookup_empty.
Qed.

Hypothesis (Hr : rng_ok (h_rng cfg)) (Hm : range_ok cfg).

Lemma seq_elem s i x : sequence s !! i = Some x -> h_min cfg <= x <= h_max cfg.
Proof. intros H. apply elem_of_list_lookup_2 in H. destruct Hm as [_ ?]. by apply suffixes_elem in H. Qed.
Lemma seq_nodup s : NoDup (sequence s).
Proof. destruct Hm as [_ ?]. by apply suffixes_nodup. Qed.
Lemma seq_len s : length (sequence s) = range_size (h_min cfg) (h_max cfg).
Proof. destruct Hm as [_ ?]. by apply suffixes_length. Qed.
Lemma seq_form s s' : utf8 (form s) = utf8 (form s') -> sequence s = sequence s'.
Proof. intros H. unfold HSpec.sequence, generate_unique_suffixes, generate_seed. by rewrite H. Qed.

Lemma used_split b l1 m d l2 s x : parts d = Some (s, x) -> budget s = b ->
  (used b l1 < used b (l1 ++ (m, d) :: l2))%nat.
Proof.
  intros Hp Hb. rewrite used_app. change ((m, d) :: l2) with ([(m, d)] ++ l2).
  rewrite used_app, (used_one _ _ _ _ _ Hp), bool_decide_eq_true_2 by done. lia.
Qed.

Lemma claimed_wf st m d : hinv st -> (m, d) ∈ claimed st ->
  exists base s x, wf_display d s x /\ acceptable base s /\ parts d = Some (s, x).
Proof.
  intros I Hin. apply elem_of_list_split in Hin as (l1 & l2 & E).
  destruct (inv_seq _ I _ _ _ _ E) as (base & s & x & Hd & Ha & _). exists base, s, x.
  split; [done|]. split; [done|]. by apply wf_parts.
Qed.
Lemma name_wf st m d e : hinv st -> hs_name st !! m = Some (d, e) ->
  exists base s x, wf_display d s x /\ acceptable base s /\ parts d = Some (s, x).
Proof. intros I H. apply (inv_name _ I) in H. by eapply claimed_wf. Qed.

(** a suffix about to be given out for a form was not given out for it before *)
Lemma fresh st s x m' d' s' x' : hinv st ->
  sequence s !! used (budget s) (claimed st) = Some x ->
  (m', d') ∈ claimed st -> parts d' = Some (s', x') -> utf8 (form s') = utf8 (form s) -> x' <> x.
Proof.
  intros I Hx Hin Hp Hf ->.
  assert (Hb : budget s' = budget s) by (unfold HSpec.budget; by rewrite Hf).
  apply elem_of_list_split in Hin as (l1 & l2 & E).
  destruct (inv_seq _ I _ _ _ _ E) as (base & s1 & x1 & Hd & _ & Hx1).
  apply wf_parts in Hd; [|done]. assert (s1 = s' /\ x1 = x) as [-> ->] by (by split; congruence).
  rewrite (seq_form s' s) in Hx1 by done. rewrite Hb in Hx1.
  pose proof (used_split (budget s) l1 m' d' l2 s' x Hp Hb) as Hlt. rewrite <- E in Hlt.
  pose proof (NoDup_lookup _ _ _ _ (seq_nodup s) Hx Hx1). lia.
Qed.

Lemma utf8_nil s : utf8 s = [] -> s = [].
Proof.
  destruct s as [|c s]; [done|]. change (utf8 (c :: s)) with (utf8_char c ++ utf8 s). intros H.
  apply app_eq_nil in H as [H _]. unfold utf8_char in H. by repeat destruct (_ <? _) in H.
Qed.
Lemma budget_short s s' base : len (utf8 (form s)) <= 32 -> acceptable base s -> budget s' = budget s ->
  utf8 (form s') = utf8 (form s).
Proof.
  intros Hs Ha H. unfold HSpec.budget in H. rewrite (proj2 (N.leb_le _ _) Hs) in H.
  destruct (_ <=? _) in H; [done|]. symmetry in H. apply utf8_nil in H.
  destruct Ha as (_ & _ & _ & _ & Hl & _). rewrite H, len_nil in Hl. lia.
Qed.

Lemma announced_emit m st e : announced m (hs_events (emit st e)) =
  match e with
  | HandleClaimed m' d => if m' =? m then Some d else announced m (hs_events st)
  | HandleRetired m' _ => if m' =? m then None else announced m (hs_events st)
  end.
Proof. unfold announced, emit. cbn [hs_events]. by rewrite fold_left_app. Qed.

Lemma claim_inv st m p st' d : hinv st -> len (hp_base p) <= 32 -> do_claim cfg st m p = Ok (st', d) ->
  hinv (emit st' (HandleClaimed m d)).
Proof.
  intros I Hlen H. apply do_claim_ok in H as (s & i & x & Hno & Ha & Hi & Hx & -> & ->); [|done..].
  rewrite (next_index_eq st s) in Hi by done. injection Hi as <-. rewrite Nat2N.id in Hx.
  destruct (acceptable_scalar _ _ Ha) as (Hsc & Hu & Hdot).
  pose proof (seq_elem _ _ _ Hx) as Hxr.
  assert (Hwf : wf_display (display (hp_base p) x) s x) by (rewrite <- Hu; done).
  assert (Hp : parts (display (hp_base p) x) = Some (s, x)) by (by apply wf_parts).
  split.
  - intros m' d' e H. rewrite claimed_emit. apply elem_of_app.
    cbn [emit hs_name claim_result] in H. rewrite Hu in H.
    destruct (decide (m = m')) as [<-|].
    + rewrite lookup_insert in H. injection H as <- <-. right. by left.
    + rewrite lookup_insert_ne in H by done. left. by apply (inv_name _ I) in H.
  - intros l1 m' d' l2 H. rewrite claimed_emit in H. change (claimed (claim_result _ _ _ _ _ _)) with (claimed st) in H.
    destruct l2 as [|y l2 _] using rev_ind.
    + apply app_inj_tail in H as [<- H]. injection H as <- <-. exists (hp_base p), s, x. done.
    + replace (l1 ++ (m', d') :: l2 ++ [y]) with ((l1 ++ (m', d') :: l2) ++ [y]) in H by (rewrite <- app_assoc; done).
      apply app_inj_tail in H as [H _]. by apply (inv_seq _ I) in H.
  - intros m'. rewrite announced_emit. cbn [emit hs_name claim_result hs_events]. rewrite Hu.
    destruct (N.eqb_spec m m') as [<-|].
    + by rewrite lookup_insert.
    + rewrite lookup_insert_ne by done. apply (inv_announced _ I).
  - intros b y m' H. cbn [emit hs_owner hs_name claim_result] in *. rewrite Hu.
    destruct (decide ((budget s, x) = (b, y))) as [E|E].
    + injection E as <- <-. rewrite lookup_insert in H. injection H as <-.
      rewrite lookup_insert. eauto 10.
    + rewrite lookup_insert_ne in H by done. destruct (inv_sound _ I _ _ _ H) as (d' & e & s' & Hn & ?).
      rewrite lookup_insert_ne by congruence. eauto 10.
  - intros m' d' e s' x' H Hp' Hs'. cbn [emit hs_owner hs_name claim_result] in *. rewrite Hu in H.
    destruct (decide (m = m')) as [<-|].
    + rewrite lookup_insert in H. injection H as <- <-. rewrite Hp in Hp'. injection Hp' as <- <-.
      by rewrite lookup_insert.
    + rewrite lookup_insert_ne in H by done.
      rewrite lookup_insert_ne; [by apply (inv_complete _ I _ _ _ _ _ H)|].
      intros E. injection E as Eb Ex. subst x'.
      destruct (name_wf _ _ _ _ I H) as (base' & s1 & x1 & _ & Ha' & Hp1).
      assert (s1 = s') as -> by congruence.
      apply (inv_name _ I) in H.
      eapply (fresh st s x); [done|done|exact H|exact Hp'| |done].
      symmetry. by eapply budget_short.
  - intros b. rewrite claimed_emit. change (claimed (claim_result _ _ _ _ _ _)) with (claimed st).
    rewrite used_app, (used_one _ _ _ _ _ Hp). cbn [emit hs_index claim_result].
    case_bool_decide as E.
    + subst b. rewrite lookup_insert. by rewrite Nat.add_1_r.
    + rewrite lookup_insert_ne by done. rewrite Nat.add_0_r. apply (inv_index _ I).
Qed.

Definition retire_result (st : HState) (m : N) (s : list N) (x : N) : HState :=
  {| hs_owner := delete (budget s, x) (hs_owner st); hs_name := delete m (hs_name st);
     hs_index := hs_index st; hs_events := hs_events st |}.

Lemma do_retire_ok st m st' d : hinv st -> do_retire cfg st m = Ok (st', d) <->
  exists e s x, hs_name st !! m = Some (d, e) /\ parts d = Some (s, x) /\ st' = retire_result st m s x.
Proof.
  intros I. unfold do_retire. destruct (hs_name st !! m) as [[d0 e]|] eqn:En.
  2:{ split; [done|]. intros (? & ? & ? & ? & _). done. }
  destruct (name_wf _ _ _ _ I En) as (base & s & x & _ & _ & Hp). unfold parts in *.
  destruct (from_utf8 d0) as [u|] eqn:Eu; [|done]. rewrite Hp, canonical_base_eq. split.
  - intros H. injection H as <- <-. exists e, s, x. rewrite Eu. done.
  - intros (e' & s' & x' & H & Hp' & ->). injection H as <- <-. rewrite Eu, Hp in Hp'. by injection Hp' as <- <-.
Qed.

Lemma retire_inv st m st' d : hinv st -> do_retire cfg st m = Ok (st', d) -> hinv (emit st' (HandleRetired m d)).
Proof.
  intros I H. apply do_retire_ok in H as (e & s & x & Hn & Hp & ->); [|done].
  split.
  - intros m' d' e' H. rewrite claimed_emit_retired. cbn [emit hs_name retire_result] in H.
    apply lookup_delete_Some in H as [_ H]. by apply (inv_name _ I) in H.
  - intros l1 m' d' l2 H. rewrite claimed_emit_retired in H. by apply (inv_seq _ I) in H.
  - intros m'. rewrite announced_emit. cbn [emit hs_name retire_result hs_events].
    destruct (N.eqb_spec m m') as [<-|].
    + by rewrite lookup_delete.
    + rewrite lookup_delete_ne by done. apply (inv_announced _ I).
  - intros b y m' H. cbn [emit hs_owner hs_name retire_result] in *.
    apply lookup_delete_Some in H as [Hne H].
    destruct (inv_sound _ I _ _ _ H) as (d' & e' & s' & Hn' & Hp' & Hb).
    destruct (decide (m = m')) as [<-|].
    + exfalso. apply Hne. rewrite Hn in Hn'. injection Hn' as <- <-. rewrite Hp in Hp'. injection Hp' as <- <-. by subst b.
    + rewrite lookup_delete_ne by done. eauto 10.
  - intros m' d' e' s' x' H Hp' Hs'. cbn [emit hs_owner hs_name retire_result] in *.
    apply lookup_delete_Some in H as [Hne H].
    pose proof (inv_complete _ I _ _ _ _ _ H Hp' Hs') as Ho.
    rewrite lookup_delete_ne; [done|]. intros E. injection E as Eb <-.
    destruct (name_wf _ _ _ _ I H) as (base & s1 & x1 & _ & Ha & Hp1).
    assert (s1 = s') as -> by congruence.
    assert (Hs : len (utf8 (form s)) <= 32).
    { by rewrite (budget_short s' s base). }
    pose proof (inv_complete _ I _ _ _ _ _ Hn Hp Hs) as Ho'. rewrite Eb in Ho'. congruence.
  - intros b. rewrite claimed_emit_retired. apply (inv_index _ I).
Qed.

Lemma dispatch_inv env st o c st' : hinv st -> h_dispatch cfg env st o c = Ok st' -> hinv st'.
Proof.
  intros I H. unfold h_dispatch in H. destruct o as [who|]; [|done].
  assert (Hlen : forall k f p m, claim_checks cfg env k f p = Ok m -> len (hp_base p) <= 32).
  { intros k f p m Hc. unfold claim_checks, verify_max_handle_byte_length, HANDLE_BYTES_MAX in Hc.
    destruct (_ <=? _) eqn:E in Hc; [lia|done]. }
  destruct c as [k f p| |k f p].
  - unfold claim_handle in H. destruct (claim_checks cfg env k f p) as [m|] eqn:Ec; [|done].
    destruct (do_claim cfg st m p) as [[st1 d]|] eqn:Ed; [|done]. injection H as <-.
    eapply claim_inv; [done|by eapply Hlen|done].
  - unfold retire_handle in H. destruct (he_msa_of env who) as [m|]; [|done].
    destruct (do_retire cfg st m) as [[st1 d]|] eqn:Ed; [|done]. injection H as <-. by eapply retire_inv.
  - unfold change_handle in H. destruct (claim_checks cfg env k f p) as [m|] eqn:Ec; [|done].
    destruct (hs_name st !! m) eqn:En; [|done].
    destruct (do_retire cfg st m) as [[st1 d]|] eqn:Ed; [|done].
    destruct (do_claim cfg _ m p) as [[st2 d']|] eqn:Ed'; [|done]. injection H as <-.
    eapply claim_inv; [|by eapply Hlen|done]. by eapply retire_inv.
Qed.
Lemma apply_dispatch st x st' : h_apply cfg st x = Ok st' -> h_dispatch cfg (hx_env x) st (hx_origin x) (hx_call x) = Ok st'.
Proof. unfold h_apply. destruct (hx_top x); [|done]. destruct (hx_origin x); [|done]. by destruct (extension_ok _ _ _ _). Qed.
Lemma step_inv st x : hinv st -> hinv (h_step cfg st x).
Proof.
  intros I. unfold h_step. destruct (h_apply cfg st x) as [st'|] eqn:E; [|done].
  apply apply_dispatch in E. by eapply dispatch_inv.
Qed.
Lemma run_inv_from st h : hinv st -> hinv (h_run cfg st h).
Proof. unfold h_run. revert st. induction h as [|x h IH]; intros st I; [done|]. cbn. by apply IH, step_inv. Qed.
Lemma run_inv h : hinv (h_run cfg h_genesis h).
Proof. apply run_inv_from, genesis_inv. Qed.
Lemma run_app st h h' : h_run cfg st (h ++ h') = h_run cfg (h_run cfg st h) h'.
Proof. unfold h_run. by rewrite fold_left_app. Qed.
End proofs.
