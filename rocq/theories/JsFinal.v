(** Proofs for the models of schemas: strings, values, Parquet columns. *)
From Coq Require Import String Ascii.
From Verif Require Import Prelude CommonTypes Utf8 Utf8Proofs ScModel JsModel JsSpec JsProofs.

(** ** Strings *)
Lemma nth_case (l : list N) k h : nth_error l k = Some h -> (k < length l)%nat.
Proof. intros H. apply nth_error_Some. by rewrite H. Qed.
Lemma spelled_iff h v : hex_value h = Some v <-> spelled h v.
Proof.
  unfold spelled. split.
  - intros H. unfold hex_value in H.
    assert (Hb : v < 16) by (repeat case_match; try discriminate; injection H as <-; lia).
    assert (Hh : (h = 48 + v /\ v < 10) \/ (10 <= v /\ (h = 87 + v \/ h = 55 + v))) by (repeat case_match; try discriminate; injection H as <-; lia).
    clear H. rewrite <- (N2Nat.id v) in Hh, Hb. remember (N.to_nat v) as k eqn:Ek. clear Ek v.
    do 16 (destruct k as [|k]; [destruct Hh as [[-> ?]|[? [-> | ->]]]; first [by left|by right|lia]|]). lia.
  - intros H. assert (exists k, N.to_nat v = k) as [k Ek] by eauto. assert (v = N.of_nat k) as -> by lia. rewrite Ek in H.
    assert (k < 16)%nat as Hk by (destruct H as [H|H]; by apply nth_case in H).
    do 16 (destruct k as [|k]; [destruct H as [H|H]; cbn in H; injection H as <-; reflexivity|]). lia.
Qed.
Lemma four_iff h1 h2 h3 h4 n : hex4 h1 h2 h3 h4 = Some n <-> four [h1; h2; h3; h4] n.
Proof.
  unfold hex4, four. split.
  - destruct (hex_value h1) as [a|] eqn:E1; [|discriminate]. destruct (hex_value h2) as [b|] eqn:E2; [|discriminate].
    destruct (hex_value h3) as [c|] eqn:E3; [|discriminate]. destruct (hex_value h4) as [d|] eqn:E4; [|discriminate].
    intros H. apply (inj Some) in H as <-. apply spelled_iff in E1, E2, E3, E4. exists h1, h2, h3, h4, a, b, c, d. split; [done|]. repeat (split; [done|]). lia.
  - intros (? & ? & ? & ? & a & b & c & d & [= <- <- <- <-] & H1 & H2 & H3 & H4 & ->). apply spelled_iff in H1, H2, H3, H4. rewrite H1, H2, H3, H4. f_equal. lia.
Qed.
Lemma four_list h n : four h n -> exists h1 h2 h3 h4, h = [h1; h2; h3; h4] /\ hex4 h1 h2 h3 h4 = Some n.
Proof.
  intros H. pose proof H as (h1 & h2 & h3 & h4 & _ & _ & _ & _ & -> & _). exists h1, h2, h3, h4. split; [done|by apply four_iff].
Qed.
Lemma hex_bound h v : hex_value h = Some v -> v < 16.
Proof. unfold hex_value. intros H. repeat case_match; try discriminate; injection H as <-; lia. Qed.
Lemma hex4_bound h1 h2 h3 h4 n : hex4 h1 h2 h3 h4 = Some n -> n < 65536.
Proof.
  unfold hex4. destruct (hex_value h1) as [a|] eqn:E1; [|discriminate]. destruct (hex_value h2) as [b|] eqn:E2; [|discriminate].
  destruct (hex_value h3) as [c|] eqn:E3; [|discriminate]. destruct (hex_value h4) as [d|] eqn:E4; [|discriminate].
  intros H. apply (inj Some) in H as <-. apply hex_bound in E1, E2, E3, E4. lia.
Qed.
Lemma escape_table e x : escape e = Some x <-> (e, x) ∈ [(34, 34); (92, 92); (47, 47); (98, 8); (102, 12); (110, 10); (114, 13); (116, 9)].
Proof.
  rewrite !elem_of_cons, elem_of_nil. unfold escape. split.
  - intros H. repeat case_match; try discriminate; injection H as <-;
    match goal with E : (e =? _) = true |- _ => apply N.eqb_eq in E as -> end; tauto.
  - intros H. repeat destruct H as [[= -> ->]|H]; try reflexivity. done.
Qed.

(** The bytes of a character: either the character itself or bytes of 128 and more, of
    which all but the first are continuations. *)
Lemma utf8_char_shape c : scalar c ->
  (c < 128 /\ utf8_char c = [c]) \/ (128 <= c /\ exists b ks, utf8_char c = b :: ks /\ 192 <= b /\ Forall (fun k => 128 <= k < 192) ks).
Proof.
  intros Hs. unfold scalar in Hs. unfold utf8_char. destruct (N.ltb_spec c 128); [by left|right]. split; [done|].
  pose proof (N.mod_lt c 64 ltac:(lia)). pose proof (N.mod_lt (c / 64) 64 ltac:(lia)). pose proof (N.mod_lt (c / 4096) 64 ltac:(lia)).
  repeat case_match; eexists _, _; (split; [reflexivity|]); (split; [lia|]); repeat constructor; lia.
Qed.
Definition plain (c : N) : Prop := 32 <= c /\ c <> 34 /\ c <> 92.
Lemma unescape_plain c r : plain c -> unescape (c :: r) = option_map (cons c) (unescape r).
Proof.
  intros (H1 & H2 & H3). cbn. destruct (N.eqb_spec c 92); [done|]. destruct (N.eqb_spec c 34); [done|]. destruct (N.ltb_spec c 32); [lia|done].
Qed.
Lemma unescape_plains l r : Forall plain l -> unescape (l ++ r) = option_map (app l) (unescape r).
Proof.
  induction 1 as [|c l Hc Hl IH]; cbn [app].
  - by destruct (unescape r).
  - rewrite unescape_plain, IH by done. by destruct (unescape r).
Qed.
Lemma pair_scalar n k : 55296 <= n < 56320 -> 56320 <= k < 57344 -> scalar (65536 + 1024 * (n - 55296) + (k - 56320)).
Proof. intros. right. lia. Qed.
Lemma reads_complete s t : reads s t -> unescape s = Some (utf8 t) /\ Forall scalar t.
Proof.
  induction 1 as [|c b t Hs H32 H34 H92 Hb [IH IS]|e x b t He Hb [IH IS]|h n b t Hh Hn Hb [IH IS]|h n g k b t Hh Hn Hg Hk Hb [IH IS]].
  - done.
  - split; [|by constructor]. rewrite unescape_plains, IH; [done|]. destruct (utf8_char_shape c Hs) as [[? ->]|(? & x & ks & -> & Hx & Hks)].
    + repeat constructor; done.
    + constructor; [split; lia|]. eapply Forall_impl; [exact Hks|]. intros y Hy. cbn in Hy. split; lia.
  - apply escape_table in He. assert (x < 128) as Hx by (unfold escape in He; repeat case_match; try discriminate; injection He as <-; lia).
    split; [|constructor; [left; lia|done]]. cbn. change (92 =? 92) with true. cbv iota.
    destruct (N.eqb_spec e 117) as [->|_]; [discriminate|]. rewrite He, IH. cbn. change (utf8 (x :: t)) with (utf8_char x ++ utf8 t).
    unfold utf8_char. destruct (N.ltb_spec x 128); [done|lia].
  - apply four_list in Hh as (h1 & h2 & h3 & h4 & -> & E). split; [|by constructor]. cbn. change (92 =? 92) with true. change (117 =? 117) with true. cbv iota.
    rewrite E, IH. unfold scalar in Hn. destruct (N.leb_spec 56320 n); destruct (N.leb_spec n 57343); destruct (N.leb_spec 55296 n); destruct (N.leb_spec n 56319); cbn [andb]; try lia; done.
  - apply four_list in Hh as (h1 & h2 & h3 & h4 & -> & E). apply four_list in Hg as (g1 & g2 & g3 & g4 & -> & E'). split; [|constructor; [by apply pair_scalar|done]].
    cbn. change (92 =? 92) with true. change (117 =? 117) with true. cbv iota. rewrite E, E', IH. cbn [andb].
    destruct (N.leb_spec 56320 n); [lia|]. destruct (N.leb_spec 55296 n); [|lia]. destruct (N.leb_spec n 56319); [|lia]. cbn [andb].
    destruct (N.leb_spec 56320 k); [|lia]. destruct (N.leb_spec k 57343); [|lia]. cbn [andb option_map]. f_equal.
    change (utf8 (?x :: t)) with (utf8_char x ++ utf8 t). f_equal. f_equal. lia.
Qed.
(** Continuation bytes are there as such. *)
Lemma unescape_inv c r out : unescape (c :: r) = Some out ->
  (plain c /\ exists out', unescape r = Some out' /\ out = c :: out')
  \/ (c = 92 /\ exists e x r1 out', r = e :: r1 /\ e <> 117 /\ escape e = Some x /\ unescape r1 = Some out' /\ out = x :: out')
  \/ (c = 92 /\ exists h n r1 out', r = 117 :: h ++ r1 /\ four h n /\ scalar n /\ unescape r1 = Some out' /\ out = utf8_char n ++ out')
  \/ (c = 92 /\ exists h n g k r1 out', r = 117 :: h ++ 92 :: 117 :: g ++ r1 /\ four h n /\ 55296 <= n < 56320 /\ four g k /\ 56320 <= k < 57344
      /\ unescape r1 = Some out' /\ out = utf8_char (65536 + 1024 * (n - 55296) + (k - 56320)) ++ out').
Proof.
  intros H. cbn in H. destruct (N.eqb_spec c 92) as [->|H92].
  - right. destruct r as [|e r1]; [discriminate|]. destruct (N.eqb_spec e 117) as [->|Hu].
    + right. destruct r1 as [|h1 [|h2 [|h3 [|h4 r']]]]; try discriminate. destruct (hex4 h1 h2 h3 h4) as [n|] eqn:E; [|discriminate].
      pose proof (hex4_bound _ _ _ _ _ E) as Hb. apply four_iff in E.
      destruct (N.leb_spec 56320 n); destruct (N.leb_spec n 57343); cbn [andb] in H; try discriminate; try lia.
      * left. split; [done|]. destruct (N.leb_spec n 56319); [lia|]. rewrite andb_false_r in H. destruct (unescape r') as [out'|] eqn:Er; [|discriminate].
        apply (inj Some) in H as <-. exists [h1; h2; h3; h4], n, r', out'. split; [done|]. split; [done|]. split; [right; lia|done].
      * destruct (N.leb_spec n 56319); [|lia]. rewrite andb_true_r in H. destruct (N.leb_spec 55296 n).
        -- right. split; [done|]. destruct r' as [|c2 [|e2 [|g1 [|g2 [|g3 [|g4 r'']]]]]]; try discriminate.
           destruct (N.eqb_spec c2 92) as [->|]; [|discriminate]. destruct (N.eqb_spec e2 117) as [->|]; [|discriminate]. cbn [andb] in H.
           destruct (hex4 g1 g2 g3 g4) as [k|] eqn:E'; [|discriminate]. apply four_iff in E'.
           destruct (N.leb_spec 56320 k); [|discriminate]. destruct (N.leb_spec k 57343); [|discriminate]. cbn [andb] in H.
           destruct (unescape r'') as [out'|] eqn:Er; [|discriminate]. apply (inj Some) in H as <-.
           exists [h1; h2; h3; h4], n, [g1; g2; g3; g4], k, r'', out'. split; [done|]. split; [done|]. split; [lia|]. split; [done|]. split; [lia|]. split; [done|].
           f_equal. f_equal. lia.
        -- left. split; [done|]. destruct (unescape r') as [out'|] eqn:Er; [|discriminate].
           apply (inj Some) in H as <-. exists [h1; h2; h3; h4], n, r', out'. split; [done|]. split; [done|]. split; [left; lia|done].
    + left. split; [done|]. destruct (escape e) as [x|] eqn:Ee; [|discriminate]. destruct (unescape r1) as [out'|] eqn:Er; [|discriminate].
      apply (inj Some) in H as <-. by exists e, x, r1, out'.
  - left. destruct (N.eqb_spec c 34); [discriminate|]. destruct (N.ltb_spec c 32); [discriminate|]. cbn [orb] in H.
    destruct (unescape r) as [out'|] eqn:Er; [|discriminate]. apply (inj Some) in H as <-. split; [done|]. by exists out'.
Qed.
Lemma head_not_cont n l k rest : scalar n -> utf8_char n ++ l = k :: rest -> 128 <= k < 192 -> False.
Proof.
  intros Hs E Hk. destruct (utf8_char_shape n Hs) as [[? Eu]|(? & b & ks & Eu & Hb & _)]; rewrite Eu in E; injection E as -> _; lia.
Qed.
Lemma conts ks : forall s out, Forall (fun k => 128 <= k < 192) ks -> unescape s = Some (ks ++ out) -> exists s', s = ks ++ s' /\ unescape s' = Some out.
Proof.
  induction ks as [|k ks IH]; intros s out Hk H; [by exists s|]. inversion Hk as [|? ? Hk0 Hks]; subst. cbn [app] in H.
  destruct s as [|c r]; [discriminate|].
  apply unescape_inv in H as [(Hp & out' & Hr & E)|[(-> & e & x & r1 & out' & -> & Hu & He & Hr & E)|[(-> & h & n & r1 & out' & -> & Hh & Hn & Hr & E)|(-> & h & n & g & j & r1 & out' & -> & Hh & Hn & Hg & Hj & Hr & E)]]].
  - injection E as <- <-. destruct (IH r out Hks Hr) as (s' & -> & Hs'). by exists s'.
  - injection E as <- _. exfalso. unfold escape in He. repeat case_match; try discriminate; injection He as <-; lia.
  - exfalso. symmetry in E. eapply head_not_cont; eauto.
  - exfalso. symmetry in E. eapply head_not_cont; [|exact E|exact Hk0]. by apply pair_scalar.
Qed.
Lemma reads_sound n : forall s out t, (length s <= n)%nat -> unescape s = Some out -> from_utf8 out = Some t -> reads s t.
Proof.
  induction n as [|n IH]; intros [|c r] out t Hl H Ht; cbn [length] in Hl; try lia.
  - cbn in H. apply (inj Some) in H as <-. cbn in Ht. apply (inj Some) in Ht as <-. constructor.
  - cbn in H. apply (inj Some) in H as <-. cbn in Ht. apply (inj Some) in Ht as <-. constructor.
  - apply unescape_inv in H as [(Hp & out' & Hr & ->)|[(-> & e & x & r1 & out' & -> & Hu & He & Hr & ->)|[(-> & h & m & r1 & out' & -> & Hh & Hn & Hr & ->)|(-> & h & m & g & j & r1 & out' & -> & Hh & Hn & Hg & Hj & Hr & ->)]]].
    + apply utf8_from in Ht as [Hsc Eu]. destruct t as [|a t]; [discriminate|]. inversion Hsc as [|? ? Ha Hsc']; subst.
      change (utf8 (a :: t)) with (utf8_char a ++ utf8 t) in Eu. destruct (utf8_char_shape a Ha) as [[Hlt E]|(Hge & b & ks & E & Hb & Hks)]; rewrite E in Eu; injection Eu as -> Eu.
      * cbn [app] in Eu. subst out'. change (c :: r) with ([c] ++ r). rewrite <- E. destruct Hp as (? & ? & ?). constructor; try done.
        apply (IH r (utf8 t)); [lia|done|by apply from_utf8_utf8].
      * rewrite <- Eu in Hr. apply conts in Hr as (s' & -> & Hs'); [|done]. rewrite app_comm_cons, <- E. constructor; [done|lia|lia|lia|].
        apply (IH s' (utf8 t)); [rewrite app_length in Hl; lia|done|by apply from_utf8_utf8].
    + cbn [length] in Hl. assert (x < 128) as Hx by (unfold escape in He; repeat case_match; try discriminate; injection He as <-; lia).
      assert (scalar x) as Hs by (left; lia). pose proof (from_utf8_char x out' Hs) as Hf. unfold utf8_char in Hf. destruct (N.ltb_spec x 128); [|lia]. cbn [app] in Hf.
      rewrite Hf in Ht. destruct (from_utf8 out') as [t'|] eqn:Eo; [|discriminate]. cbn in Ht. apply (inj Some) in Ht as <-. constructor; [by apply escape_table|].
      apply (IH r1 out'); [lia|done|done].
    + cbn [length] in Hl. rewrite app_length in Hl. rewrite from_utf8_char in Ht by done. destruct (from_utf8 out') as [t'|] eqn:Eo; [|discriminate]. cbn in Ht. apply (inj Some) in Ht as <-.
      apply rd_unicode; [done|done|]. apply (IH r1 out'); [lia|done|done].
    + cbn [length] in Hl. rewrite app_length in Hl. cbn [length] in Hl. rewrite app_length in Hl. rewrite from_utf8_char in Ht by (by apply pair_scalar). destruct (from_utf8 out') as [t'|] eqn:Eo; [|discriminate]. cbn in Ht. apply (inj Some) in Ht as <-.
      apply rd_pair; try done. apply (IH r1 out'); [lia|done|done].
Qed.
Lemma reads_iff s t : str_decode s = Some t <-> reads s t.
Proof.
  unfold str_decode. split.
  - destruct (unescape s) as [out|] eqn:E; [|discriminate]. intros H. by apply (reads_sound (length s) s out).
  - intros H. apply reads_complete in H as [-> Hs]. by apply from_utf8_utf8.
Qed.
Lemma proper_iff s : match str_decode s with Some _ => true | None => false end = true <-> proper_string s.
Proof.
  unfold proper_string. destruct (str_decode s) as [t|] eqn:E.
  - apply reads_iff in E. split; [by exists t|done].
  - split; [done|]. intros [t H]. apply reads_iff in H. congruence.
Qed.

Lemma reads_fun s t t' : reads s t -> reads s t' -> t = t'.
Proof. intros H1 H2. apply reads_iff in H1, H2. congruence. Qed.

(** ** Trees *)
Lemma Js_induction (P : Js -> Prop) :
  P JNull -> (forall b, P (JBool b)) -> (forall n, P (JNum n)) -> (forall s, P (JStr s)) ->
  (forall l, Forall P l -> P (JArr l)) -> (forall l, Forall (fun kv => P (snd kv)) l -> P (JObj l)) -> forall t, P t.
Proof.
  intros H1 H2 H3 H4 H5 H6. fix IH 1. intros [ |b|n|s|l|l].
  - exact H1.
  - apply H2.
  - apply H3.
  - apply H4.
  - apply H5. induction l as [|x l IHl]; constructor; [apply IH|apply IHl].
  - apply H6. induction l as [|[k v] l IHl]; constructor; [apply IH|apply IHl].
Qed.
Lemma natural_iff x v : natural x v <-> forallb is_digit x = true /\ dec_value x = v.
Proof.
  unfold natural, dec_value. split.
  - intros (ds & Hd & -> & ->). split.
    + induction Hd as [|d ds Hd _ IH]; [done|]. cbn. rewrite IH. unfold is_digit. lia.
    + generalize 0 as acc. induction Hd as [|d ds Hd _ IH]; intros acc; [done|]. cbn. rewrite IH. f_equal. lia.
  - intros [Hd <-]. exists (map (fun c => c - 48) x). assert (Forall (fun c => 48 <= c <= 57) x) as Hx.
    { rewrite Forall_forall. rewrite forallb_forall in Hd. intros c Hc. apply elem_of_list_In in Hc. specialize (Hd c Hc). unfold is_digit in Hd. lia. }
    clear Hd. split; [|split].
    + apply Forall_map. eapply Forall_impl; [exact Hx|]. intros c Hc. cbn in *. lia.
    + rewrite map_map. rewrite <- (map_id x) at 1. induction Hx as [|c x Hc _ IH]; [done|]. cbn. f_equal; [lia|exact IH].
    + generalize 0 as acc. clear. induction x as [|c x IH]; intros acc; [done|]. cbn. apply IH.
Qed.
Lemma u64_iff x v : u64_of x = Some v <-> natural x v /\ v < 2 ^ 64.
Proof.
  unfold u64_of. rewrite natural_iff. destruct (forallb is_digit x); cbn [andb]; [|split; [done|intros [[? _] _]; done]].
  change u64_max with (2 ^ 64 - 1). destruct (N.leb_spec (dec_value x) (2 ^ 64 - 1)).
  - split; [intros [= <-]; lia|]. intros [[_ ->] _]. done.
  - split; [done|]. intros [[_ <-] ?]. lia.
Qed.
Lemma num_iff ok x : num_ok ok x = true <-> in_range ok x.
Proof.
  unfold num_ok, in_range. destruct x as [|c r].
  { cbn. split; [|done]. intros _. left. exists 0. split; [left|lia]. by exists []. }
  destruct (N.eqb_spec c 45) as [->|Hc].
  - destruct (u64_of r) as [v|] eqn:E.
    + apply u64_iff in E as [Hn Hv]. split; [|done]. intros _. left. exists v. split; [right; by exists r|done].
    + split; [by right|]. intros [(v & [(ds & Hd & Er & _)|(y & [= <-] & Hy)] & Hv)|]; [| |done].
      * destruct ds as [|d ds]; [done|]. injection Er as ? _. lia.
      * pose proof (proj2 (u64_iff r v) (conj Hy Hv)). congruence.
  - destruct (u64_of (c :: r)) as [v|] eqn:E.
    + apply u64_iff in E as [Hn Hv]. split; [|done]. intros _. left. exists v. split; [by left|done].
    + split; [by right|]. intros [(v & [Hn|(y & [= -> _] & _)] & Hv)|]; [|done|done].
      pose proof (proj2 (u64_iff _ v) (conj Hn Hv)). congruence.
Qed.
Lemma held_iff ok t : forall n, value_ok ok (S n) t = true <-> held (in_range ok) n t.
Proof.
  induction t as [ |b|x|s|l IH|l IH] using Js_induction; intros n.
  - split; [constructor|done].
  - split; [constructor|done].
  - cbn. rewrite num_iff. split; [by constructor|by inversion 1].
  - cbn. rewrite proper_iff. split; [by constructor|by inversion 1].
  - cbn. destruct n as [|n]; [split; [done|by inversion 1]|]. split.
    + intros H. constructor. apply Forall_forall. intros x Hx. rewrite forallb_forall in H. rewrite Forall_forall in IH. apply IH; [done|]. apply H. by apply elem_of_list_In.
    + intros H. inversion H as [ | | | |? ? Hl|]; subst. apply forallb_forall. intros x Hx. apply elem_of_list_In in Hx. rewrite Forall_forall in IH, Hl. apply IH; auto.
  - cbn. destruct n as [|n]; [split; [done|by inversion 1]|]. split.
    + intros H. rewrite forallb_forall in H. rewrite Forall_forall in IH. assert (Hx : forall kv, kv ∈ l -> proper_string (fst kv) /\ held (in_range ok) n (snd kv)).
      { intros kv Hkv. pose proof (H kv (proj1 (elem_of_list_In _ _) Hkv)) as E. pose proof (proper_iff (fst kv)) as Hp. destruct (str_decode (fst kv)); [|done].
        split; [by apply Hp|by apply (IH kv Hkv)]. }
      constructor; apply Forall_forall; intros kv Hkv; by apply Hx.
    + intros H. inversion H as [ | | | | |? ? Hk Hl]; subst. apply forallb_forall. intros kv Hx. apply elem_of_list_In in Hx. rewrite Forall_forall in IH, Hl, Hk.
      specialize (Hk kv Hx). apply proper_iff in Hk. destruct (str_decode (fst kv)); [|done]. apply IH; auto.
Qed.

(** ** Structs *)
Definition never (l : list (list N * Js)) (n : list N) : Prop := forall k v, (k, v) ∈ l -> ~ reads k n.
Definition once (l : list (list N * Js)) (f : Field) : Prop :=
  exists l1 k v l2, l = l1 ++ (k, v) :: l2 /\ reads k (fst f) /\ snd f v = true /\ never (l1 ++ l2) (fst f).
Lemma never_cons k v l n : never ((k, v) :: l) n <-> ~ reads k n /\ never l n.
Proof.
  unfold never. split.
  - intros H. split; [apply (H k v); left|]. intros k' v' H'. apply (H k' v'). by right.
  - intros [H1 H2] k' v' H'. apply elem_of_cons in H' as [[= -> ->]|H']; [done|by apply (H2 k' v')].
Qed.
Lemma once_cons k v l f : once ((k, v) :: l) f <-> (reads k (fst f) /\ snd f v = true /\ never l (fst f)) \/ (~ reads k (fst f) /\ once l f).
Proof.
  unfold once. split.
  - intros (l1 & k0 & v0 & l2 & E & Hr & Hv & Hn). destruct l1 as [|kv l1].
    + injection E as -> -> ->. by left.
    + injection E as <- ->. cbn [app] in Hn. apply never_cons in Hn as [Hk Hn]. right. split; [done|]. by exists l1, k0, v0, l2.
  - intros [(Hr & Hv & Hn)|(Hk & l1 & k0 & v0 & l2 & -> & Hr & Hv & Hn)]; [by exists [], k, v, l|].
    exists ((k, v) :: l1), k0, v0, l2. split; [done|]. split; [done|]. split; [done|]. cbn [app]. by apply never_cons.
Qed.
Lemma find_some fs n ok : find_field fs n = Some ok -> exists f, f ∈ fs /\ fst f = n /\ snd f = ok.
Proof.
  unfold find_field, option_map. case_match eqn:E; [|discriminate]. intros H. apply (inj Some) in H.
  apply List.find_some in E as [Hin Hb]. eexists. split; [by apply elem_of_list_In|]. split; [by apply bool_decide_eq_true in Hb|done].
Qed.
Lemma find_none fs n : find_field fs n = None -> forall f, f ∈ fs -> fst f <> n.
Proof.
  unfold find_field, option_map. case_match eqn:E; [discriminate|]. intros _ f Hf En.
  apply elem_of_list_In in Hf. pose proof (List.find_none _ _ E f Hf) as Hb. by apply bool_decide_eq_false in Hb.
Qed.
Lemma find_first fs f : NoDup (map fst fs) -> f ∈ fs -> find_field fs (fst f) = Some (snd f).
Proof.
  intros Hn Hf. destruct (find_field fs (fst f)) as [ok|] eqn:E.
  - apply find_some in E as (g & Hg & E1 & <-). f_equal. f_equal.
    apply elem_of_list_lookup in Hg as [i Hi], Hf as [j Hj]. enough (i = j) by congruence.
    eapply (NoDup_lookup (map fst fs)); [done|rewrite list_lookup_fmap, Hi; reflexivity|rewrite list_lookup_fmap, Hj; cbn; by rewrite E1].
  - by apply (find_none fs (fst f) E f) in Hf.
Qed.
Lemma visit_map_iff fs : NoDup (map fst fs) -> forall l seen,
  visit_map fs seen l = true <-> Forall (fun kv => proper_string (fst kv)) l
    /\ forall f, f ∈ fs -> (fst f ∈ seen /\ never l (fst f)) \/ (fst f ∉ seen /\ once l f).
Proof.
  intros Hnd. induction l as [|[k v] l IH]; intros seen.
  - cbn [visit_map]. rewrite forallb_forall. split.
    + intros H. split; [constructor|]. intros f Hf. left. split; [|intros k v Hkv; by apply elem_of_nil in Hkv].
      apply elem_of_list_In, H in Hf. by apply bool_decide_eq_true in Hf.
    + intros [_ H] f Hf. apply elem_of_list_In in Hf. apply bool_decide_eq_true. destruct (H f Hf) as [[? _]|(_ & l1 & k & v & l2 & E & _)]; [done|].
      by destruct l1.
  - cbn [visit_map]. destruct (str_decode k) as [n|] eqn:En.
    2: { split; [done|]. intros [Hp _]. inversion Hp as [|? ? Hk _]; subst. apply proper_iff in Hk. cbn in Hk. by rewrite En in Hk. }
    assert (Hk : reads k n) by (by apply reads_iff). assert (Hother : forall n', n' <> n -> ~ reads k n') by (intros n' Hne Hr; apply Hne; by eapply reads_fun).
    assert (Hp : proper_string k) by (by exists n).
    destruct (find_field fs n) as [ok|] eqn:Ef.
    + apply find_some in Ef as (f0 & Hf0 & <- & <-). rewrite !andb_true_iff, negb_true_iff, bool_decide_eq_false, IH. split.
      * intros [[Hs Hv] [Hl H]]. split; [by constructor|]. intros f Hf. destruct (decide (fst f = fst f0)) as [E|E].
        -- assert (snd f = snd f0) as E2. { pose proof (find_first fs f Hnd Hf) as X. rewrite E, (find_first fs f0 Hnd Hf0) in X. congruence. }
           right. rewrite E. split; [done|]. apply once_cons. left. rewrite E, E2. split; [done|]. split; [done|].
           destruct (H f0 Hf0) as [[_ ?]|[Hx _]]; [done|]. exfalso. apply Hx. left.
        -- destruct (H f Hf) as [[Hi Hnv]|[Hi Ho]].
           ++ left. apply elem_of_cons in Hi as [?|Hi]; [done|]. split; [done|]. apply never_cons. split; [by apply Hother|done].
           ++ right. split; [intros ?; apply Hi; by right|]. apply once_cons. right. split; [by apply Hother|done].
      * intros [Hl H]. inversion Hl as [|? ? _ Hl']; subst. destruct (H f0 Hf0) as [[_ Hnv]|[Hs Ho]].
        { apply never_cons in Hnv as [? _]. done. }
        apply once_cons in Ho as [(_ & Hv & Hnv)|[? _]]; [|done]. split; [done|]. split; [done|]. intros f Hf. destruct (decide (fst f = fst f0)) as [E|E].
        -- left. rewrite E. split; [left|done].
        -- destruct (H f Hf) as [[Hi Hn']|[Hi Ho']].
           ++ left. apply never_cons in Hn' as [_ ?]. split; [by right|done].
           ++ right. split; [intros Hx; by apply elem_of_cons in Hx as [?|?]|]. apply once_cons in Ho' as [[? _]|[_ ?]]; [|done]. exfalso. by apply (Hother (fst f)).
    + pose proof (find_none fs n Ef) as Hne. rewrite IH. split.
      * intros [Hl H]. split; [by constructor|]. intros f Hf. destruct (H f Hf) as [[Hi Hn']|[Hi Ho']].
        -- left. split; [done|]. apply never_cons. split; [apply Hother; by apply Hne|done].
        -- right. split; [done|]. apply once_cons. right. split; [apply Hother; by apply Hne|done].
      * intros [Hl H]. inversion Hl as [|? ? _ Hl']; subst. split; [done|]. intros f Hf. destruct (H f Hf) as [[Hi Hn']|[Hi Ho']].
        -- left. apply never_cons in Hn' as [_ ?]. done.
        -- right. split; [done|]. apply once_cons in Ho' as [[Hr _]|[_ ?]]; [|done]. exfalso. by apply (Hother (fst f) (Hne f Hf)).
Qed.
(** The parts of the specification and the fields of the code *)
Definition same (g : string * (Js -> Prop)) (f : Field) : Prop := fst f = chars (fst g) /\ forall v, snd f v = true <-> snd g v.
Lemma visit_seq_iff gs fs l : Forall2 same gs fs -> visit_seq fs l = true <-> Forall2 (fun g v => snd g v) gs l.
Proof.
  intros H. revert l. induction H as [|g f gs fs [_ Hv] _ IH]; intros [|v l]; cbn.
  - split; [constructor|done].
  - split; [done|by inversion 1].
  - split; [done|by inversion 1].
  - rewrite andb_true_iff, IH, Hv. split; [intros []; by constructor|by inversion 1].
Qed.
Lemma struct_iff gs fs t : NoDup (map fst fs) -> Forall2 same gs fs -> de_struct fs t = true <-> parts gs t.
Proof.
  intros Hn Hs. unfold de_struct, parts. destruct t as [ |b|x|s|l|l]; try (split; [done|intros [(? & ? & _)|(? & ? & _)]; done]).
  - rewrite (visit_seq_iff gs) by done. split; [intros H; left; by exists l|]. intros [(l' & [= ->] & H)|(? & ? & _)]; [done|done].
  - rewrite visit_map_iff by done. split.
    + intros [Hp H]. right. exists l. split; [done|]. split; [done|]. intros g Hg.
      apply elem_of_list_lookup in Hg as [i Hi]. destruct (Forall2_lookup_l _ _ _ _ _ Hs Hi) as (f & Hf & En & Hv). apply elem_of_list_lookup_2 in Hf.
      destruct (H f Hf) as [[Hx _]|(_ & l1 & k & v & l2 & -> & Hr & Hok & Hnv)]; [by apply elem_of_nil in Hx|]. rewrite En in Hr, Hnv.
      exists l1, k, v, l2. split; [done|]. split; [done|]. split; [by apply Hv|exact Hnv].
    + intros [(? & ? & _)|(l' & [= <-] & Hp & H)]; [done|]. split; [done|]. intros f Hf. right. split; [apply not_elem_of_nil|].
      apply elem_of_list_lookup in Hf as [i Hi]. destruct (Forall2_lookup_r _ _ _ _ _ Hs Hi) as (g & Hg & En & Hv). apply elem_of_list_lookup_2 in Hg.
      destruct (H g Hg) as (l1 & k & v & l2 & -> & Hr & Hok & Hnv). rewrite <- En in Hr, Hnv. exists l1, k, v, l2. split; [done|]. split; [done|]. split; [by apply Hv|exact Hnv].
Qed.

(** ** Enums *)
Lemma enum_iff ws gs nts t : NoDup (map fst nts) -> Forall2 same gs nts -> (forall g, g ∈ gs -> chars (fst g) ∉ map chars ws) ->
  de_enum (map chars ws) nts t = true <-> word ws t \/ exists g, g ∈ gs /\ tagged (fst g) (snd g) t.
Proof.
  intros Hnd Hs Hdis. split.
  - intros H. unfold de_enum in H. destruct t as [ |b|x|s|l|[|[k v] [|]]]; try discriminate.
    + destruct (str_decode s) as [n|] eqn:E; [|discriminate]. apply reads_iff in E. apply bool_decide_eq_true in H.
      apply elem_of_list_fmap in H as (w & -> & Hw). left. exists w, s. split; [done|]. split; [done|by left].
    + destruct (str_decode k) as [n|] eqn:E; [|discriminate]. apply reads_iff in E. case_bool_decide as Hin.
      * apply elem_of_list_fmap in Hin as (w & -> & Hw). destruct v; try discriminate. left. exists w, k. split; [done|]. split; [done|by right].
      * destruct (find_field nts n) as [ok|] eqn:Ef; [|discriminate]. apply find_some in Ef as (f & Hf & <- & <-). right.
        apply elem_of_list_lookup in Hf as [i Hi]. destruct (Forall2_lookup_r _ _ _ _ _ Hs Hi) as (g & Hg & En & Hv). apply elem_of_list_lookup_2 in Hg.
        exists g. split; [done|]. exists k, v. rewrite <- En. split; [done|]. split; [by apply Hv|done].
  - intros [(w & s & Hw & Hr & [-> | ->])|(g & Hg & s & v & Hr & Hv & ->)]; unfold de_enum; apply reads_iff in Hr; rewrite Hr.
    + apply bool_decide_eq_true. apply elem_of_list_fmap. by exists w.
    + rewrite bool_decide_eq_true_2; [done|]. apply elem_of_list_fmap. by exists w.
    + rewrite bool_decide_eq_false_2 by (by apply Hdis). apply elem_of_list_lookup in Hg as [i Hi].
      destruct (Forall2_lookup_l _ _ _ _ _ Hs Hi) as (f & Hf & En & Hv'). apply elem_of_list_lookup_2 in Hf. rewrite <- En, (find_first nts f) by done. by apply Hv'.
Qed.
Lemma word_app a b t : word (a ++ b) t <-> word a t \/ word b t.
Proof.
  unfold word. split.
  - intros (w & s & Hw & H). apply elem_of_app in Hw as [Hw|Hw]; [left|right]; by exists w, s.
  - intros [(w & s & Hw & H)|(w & s & Hw & H)]; exists w, s; (split; [apply elem_of_app; auto|done]).
Qed.
Lemma word_none t : ~ word [] t.
Proof. intros (w & s & Hw & _). by apply elem_of_nil in Hw. Qed.

(** ** The types of Parquet *)
Lemma bool_iff t : de_bool t = true <-> boolean t.
Proof. unfold boolean. destruct t; cbn; split; try done; try (intros [? [=]]); intros _; by eexists. Qed.
Lemma byte_iff t : de_u8 t = true <-> byte t.
Proof.
  unfold byte. destruct t as [ |b|x|s|l|l]; cbn; try (split; [done|intros (? & ? & [=] & _)]). destruct (u64_of x) as [v|] eqn:E.
  - apply u64_iff in E as [Hn Hv]. change u8_max with 255. split.
    + intros H. exists x, v. split; [done|]. split; [done|lia].
    + intros (x' & v' & [= <-] & Hn' & Hv'). enough (v = v') by lia. apply natural_iff in Hn as [_ <-], Hn' as [_ <-]. done.
  - split; [done|]. intros (x' & v' & [= <-] & Hn' & Hv'). assert (v' < 2 ^ 64) by (eapply N.lt_trans; [exact Hv'|reflexivity]).
    pose proof (proj2 (u64_iff x v') (conj Hn' H)). congruence.
Qed.
Lemma text_iff t : de_string t = true <-> some_text t.
Proof.
  unfold some_text. destruct t as [ |b|x|s|l|l]; cbn; try (split; [done|intros (? & [=] & _)]). rewrite proper_iff. split; [by exists s|]. by intros (s' & [= <-] & ?).
Qed.
Lemma enum_words ws t : de_enum (map chars ws) [] t = true <-> word ws t.
Proof.
  rewrite (enum_iff ws [] []); [|constructor|constructor|intros g Hg; by apply elem_of_nil in Hg].
  split; [intros [?|(g & Hg & _)]; [done|by apply elem_of_nil in Hg]|by left].
Qed.
Lemma names_distinct (l : list (list N)) : bool_decide (NoDup l) = true -> NoDup l.
Proof. apply bool_decide_eq_true. Qed.
Lemma base_iff t : base_type t = true <-> word ["BOOLEAN"; "INT32"; "INT64"; "FLOAT"; "DOUBLE"; "BYTE_ARRAY"; "FIXED_LEN_BYTE_ARRAY"]%string t.
Proof.
  rewrite <- enum_words. unfold base_type.
  assert (map screaming_snake_case [str "Boolean"; str "Int32"; str "Int64"; str "Float"; str "Double"; str "ByteArray"; str "FixedLenByteArray"]
    = map chars ["BOOLEAN"; "INT32"; "INT64"; "FLOAT"; "DOUBLE"; "BYTE_ARRAY"; "FIXED_LEN_BYTE_ARRAY"]%string) as -> by (vm_compute; reflexivity). done.
Qed.
Lemma codec_iff t : compression_codec t = true <-> word accepted_codecs t.
Proof.
  rewrite <- enum_words. unfold compression_codec.
  assert (map screaming_snake_case [str "Uncompressed"; str "Snappy"; str "Gzip"; str "Lzo"; str "Brotli"; str "ZSTD"; str "Lz4Raw"] = map chars accepted_codecs) as -> by (vm_compute; reflexivity). done.
Qed.
Lemma string_iff t : string_type t = true <-> word ["STRING"; "UUID"]%string t.
Proof.
  rewrite <- enum_words. unfold string_type.
  assert (map uppercase [str "String"; str "UUID"] = map chars ["STRING"; "UUID"]%string) as -> by (vm_compute; reflexivity). done.
Qed.
Lemma unit_iff t : time_unit t = true <-> word ["MILLIS"; "MICROS"; "NANOS"]%string t.
Proof.
  rewrite <- enum_words. unfold time_unit.
  assert (map uppercase [str "Millis"; str "Micros"; str "Nanos"] = map chars ["MILLIS"; "MICROS"; "NANOS"]%string) as -> by (vm_compute; reflexivity). done.
Qed.
Lemma integer_iff t : parquet_integer t = true <-> parts [("bit_width", byte); ("sign", boolean)]%string t.
Proof.
  apply struct_iff; [apply names_distinct; vm_compute; reflexivity|].
  constructor; [split; [reflexivity|intros; apply byte_iff]|]. constructor; [split; [reflexivity|intros; apply bool_iff]|constructor].
Qed.
Lemma decimal_iff t : parquet_decimal t = true <-> parts [("scale", byte); ("precision", byte)]%string t.
Proof.
  apply struct_iff; [apply names_distinct; vm_compute; reflexivity|].
  constructor; [split; [reflexivity|intros; apply byte_iff]|]. constructor; [split; [reflexivity|intros; apply byte_iff]|constructor].
Qed.
Lemma time_iff t : parquet_time t = true <-> parts [("is_adjusted_to_utc", boolean); ("unit", word ["MILLIS"; "MICROS"; "NANOS"])]%string t.
Proof.
  apply struct_iff; [apply names_distinct; vm_compute; reflexivity|].
  constructor; [split; [reflexivity|intros; apply bool_iff]|]. constructor; [split; [reflexivity|intros; apply unit_iff]|constructor].
Qed.
Lemma numeric_iff t : numeric_type t = true <->
  tagged "INTEGER" (parts [("bit_width", byte); ("sign", boolean)]%string) t \/ tagged "DECIMAL" (parts [("scale", byte); ("precision", byte)]%string) t.
Proof.
  unfold numeric_type. change (@nil (list N)) with (map chars []) at 1.
  rewrite (enum_iff [] [("INTEGER", parts [("bit_width", byte); ("sign", boolean)]); ("DECIMAL", parts [("scale", byte); ("precision", byte)])]%string).
  - split.
    + intros [H|(g & Hg & H)]; [by apply word_none in H|]. rewrite !elem_of_cons, elem_of_nil in Hg. destruct Hg as [->|[->|[]]]; [by left|by right].
    + intros [H|H]; right; [exists ("INTEGER", parts [("bit_width", byte); ("sign", boolean)])%string|exists ("DECIMAL", parts [("scale", byte); ("precision", byte)])%string];
      (split; [rewrite !elem_of_cons; tauto|exact H]).
  - apply names_distinct; vm_compute; reflexivity.
  - constructor; [split; [vm_compute; reflexivity|intros; apply integer_iff]|]. constructor; [split; [vm_compute; reflexivity|intros; apply decimal_iff]|constructor].
  - intros g _ H. by apply elem_of_nil in H.
Qed.
Lemma temporal_iff t : let time := parts [("is_adjusted_to_utc", boolean); ("unit", word ["MILLIS"; "MICROS"; "NANOS"])]%string in
  temporal_type t = true <-> word ["DATE"; "INTERVAL"]%string t \/ tagged "TIME" time t \/ tagged "TIMESTAMP" time t.
Proof.
  intros time. unfold temporal_type. assert (map uppercase [str "Date"; str "Interval"] = map chars ["DATE"; "INTERVAL"]%string) as -> by (vm_compute; reflexivity).
  rewrite (enum_iff _ [("TIME", time); ("TIMESTAMP", time)]%string).
  - split.
    + intros [H|(g & Hg & H)]; [by left|]. rewrite !elem_of_cons, elem_of_nil in Hg. destruct Hg as [->|[->|[]]]; [right; by left|right; by right].
    + intros [H|[H|H]]; [by left|right; exists ("TIME", time)%string|right; exists ("TIMESTAMP", time)%string]; (split; [rewrite !elem_of_cons; tauto|exact H]).
  - apply names_distinct; vm_compute; reflexivity.
  - constructor; [split; [vm_compute; reflexivity|intros; apply time_iff]|]. constructor; [split; [vm_compute; reflexivity|intros; apply time_iff]|constructor].
  - intros g Hg. rewrite !elem_of_cons, elem_of_nil in Hg. destruct Hg as [->|[->|[]]]; apply (bool_decide_eq_false _); vm_compute; reflexivity.
Qed.
Lemma type_iff ok t : parquet_type ok t = true <-> column_type t /\ held (in_range ok) 125 t.
Proof.
  unfold parquet_type, column_type. rewrite andb_true_iff, held_iff, !orb_true_iff, base_iff, string_iff, numeric_iff, temporal_iff.
  change (["BOOLEAN"; "INT32"; "INT64"; "FLOAT"; "DOUBLE"; "BYTE_ARRAY"; "FIXED_LEN_BYTE_ARRAY"; "STRING"; "UUID"; "DATE"; "INTERVAL"]%string)
    with (["BOOLEAN"; "INT32"; "INT64"; "FLOAT"; "DOUBLE"; "BYTE_ARRAY"; "FIXED_LEN_BYTE_ARRAY"]%string ++ ["STRING"; "UUID"]%string ++ ["DATE"; "INTERVAL"]%string).
  rewrite !word_app. tauto.
Qed.
Lemma column_iff ok t : parquet_column ok t = true <-> column accepted_codecs ok t.
Proof.
  apply struct_iff; [apply names_distinct; vm_compute; reflexivity|].
  constructor; [split; [reflexivity|intros; apply text_iff]|]. constructor; [split; [reflexivity|intros; apply type_iff]|].
  constructor; [split; [reflexivity|intros; apply codec_iff]|]. constructor; [split; [reflexivity|intros; apply bool_iff]|constructor].
Qed.

(** ** Models *)
Lemma avro_iff ok m : valid_model ok AvroBinary m = true <-> exists l, json_text m (JObj l) /\ held (in_range ok) 127 (JObj l).
Proof.
  cbn [valid_model]. unfold validate_json_model. split.
  - destruct (parse m) as [t|] eqn:E; [|discriminate]. apply parse_iff in E. destruct t; try discriminate. intros H. apply held_iff in H. by eexists.
  - intros (l & Hm & Hh). apply parse_iff in Hm. rewrite Hm. by apply held_iff.
Qed.
Lemma parquet_iff ok m : valid_model ok Parquet m = true <-> exists l, json_text m (JArr l) /\ Forall (column accepted_codecs ok) l.
Proof.
  cbn [valid_model]. unfold parquet_model. split.
  - destruct (parse m) as [t|] eqn:E; [|discriminate]. apply parse_iff in E. destruct t as [ | | | |l| ]; try discriminate. intros H. exists l. split; [done|].
    apply Forall_forall. intros x Hx. apply column_iff. rewrite forallb_forall in H. apply H. by apply elem_of_list_In.
  - intros (l & Hm & Hh). apply parse_iff in Hm. rewrite Hm. apply forallb_forall. intros x Hx. apply column_iff. rewrite Forall_forall in Hh. apply Hh. by apply elem_of_list_In.
Qed.
Lemma one_tree m t t' : json_text m t -> json_text m t' -> t = t'.
Proof. intros H1 H2. apply parse_iff in H1, H2. congruence. Qed.
