(** Properties of the handles pallet. *)
From Verif Require Import Prelude Scale XxHash Utf8 Utf8Proofs HConfusables HModel HSpec HProofs HFinal StModel.

(** ** A small configuration for the examples: suffixes 10 to 12, characters
    that are their own canonical form, signatures that equal the signer. *)
Definition toy_un : Unicode := {| un_decomp := fun c => [c]; un_ccc := fun _ => 0; un_mark := fun _ => false |}.
Definition toy_rng : Rng := {| rng_new := fun s => s; rng_range := fun st lo hi => (lo, st) |}.
Definition toy : HCfg :=
  {| h_min := 10; h_max := 12; h_window := 100; h_rng := toy_rng; h_unicode := toy_un; h_confusable := fun c => c;
     h_verify := fun f k _ => f =? k |}.
Lemma toy_rng_ok : rng_ok (h_rng toy). Proof. intros st lo hi H. cbn. lia. Qed.
Lemma toy_range_ok : range_ok toy. Proof. unfold range_ok, u16_max. cbn. lia. Qed.
(** MSA 1 has key 1, MSA 2 has key 2, ... *)
Definition env_at (b : N) : HEnv := {| he_block := b; he_msa_of := fun k => if k =? 0 then None else Some k |}.
Definition call_at (b : N) (who : N) (c : HCall) : HX := {| hx_env := env_at b; hx_top := true; hx_origin := Some who; hx_call := c |}.
(** "foo" and "bar" *)
Definition foo : list N := [102; 111; 111].
Definition bar : list N := [98; 97; 114].
Definition claim_at (b k : N) (base : list N) (e : N) : HX := call_at b 9 (ClaimHandle k k {| hp_base := base; hp_exp := e |}).
Definition change_at (b k : N) (base : list N) (e : N) : HX := call_at b 9 (ChangeHandle k k {| hp_base := base; hp_exp := e |}).

(** The runtime, with a Unicode table in which every character that is not a
    Hangul syllable is its own decomposition, and with every signature valid. *)
Definition rt : HCfg := runtime_handles toy_un (fun _ _ _ => true).

(** ** C50: suffixes for a base handle never repeat *)
Theorem C50_suffixes_enumerate_range :
  forall r mn mx canonical, rng_ok r -> mx < u16_max ->
  NoDup (generate_unique_suffixes r mn mx canonical)
  /\ forall x, x ∈ generate_unique_suffixes r mn mx canonical <-> mn <= x <= mx.
Proof. intros r mn mx c Hr Hm. exact (conj (suffixes_nodup r mn mx c Hr Hm) (fun x => suffixes_elem r mn mx c x Hr Hm)). Qed.
Print Assumptions C50_suffixes_enumerate_range.

Theorem C50_runtime_generator : rng_ok rand32 /\ forall un verify, range_ok (runtime_handles un verify).
Proof. split; [exact rand32_ok|]. intros. unfold range_ok, u16_max. cbn. lia. Qed.
Print Assumptions C50_runtime_generator.

Example C50_case : generate_unique_suffixes toy_rng 10 12 foo = [10; 12; 11]. Proof. vm_compute. reflexivity. Qed.

(** ** C51: handles are unique and resolve consistently *)
(** An MSA has the handle that its latest event announces, and no other. *)
Theorem C51_handle_is_latest_announced :
  forall cfg h m, rng_ok (h_rng cfg) -> range_ok cfg ->
  announced m (hs_events (h_run cfg h_genesis h)) =
  match get_handle_for_msa cfg (h_run cfg h_genesis h) m with
  | Some r => Some (display (hr_base r) (hr_suffix r))
  | None => None
  end.
Proof. intros cfg h m Hr Hm. exact (announced_lemma cfg Hr Hm h m). Qed.
Print Assumptions C51_handle_is_latest_announced.

(** A name that resolves, resolves to an MSA whose handle has that canonical
    base and suffix. *)
Theorem C51_lookup_sound :
  forall cfg h d m, rng_ok (h_rng cfg) -> range_ok cfg ->
  get_msa_id_for_handle cfg (h_run cfg h_genesis h) d = Some m ->
  exists s x r, parts d = Some (s, x)
    /\ get_handle_for_msa cfg (h_run cfg h_genesis h) m = Some r
    /\ hr_canonical r = budget cfg s /\ hr_suffix r = x.
Proof.
  intros cfg h d m Hr Hm H. destruct (lookup_parts cfg h d m H) as (s & x & Hp).
  destruct (lookup_sound_lemma cfg Hr Hm h d m s x H Hp) as (r & Hr'). exact (ex_intro _ s (ex_intro _ x (ex_intro _ r (conj Hp Hr')))).
Qed.
Print Assumptions C51_lookup_sound.

(** The full display handle of an MSA, and every spelling with the same
    canonical base and suffix, resolves to it, when the canonical form fits 32
    bytes. *)
Theorem C51_lookup_complete_partial :
  forall cfg h d m r s x, rng_ok (h_rng cfg) -> range_ok cfg ->
  get_handle_for_msa cfg (h_run cfg h_genesis h) m = Some r -> hr_canonical r <> [] ->
  parts d = Some (s, x) -> budget cfg s = hr_canonical r -> x = hr_suffix r ->
  get_msa_id_for_handle cfg (h_run cfg h_genesis h) d = Some m.
Proof. intros cfg h d m r s x Hr Hm. exact (lookup_complete_lemma cfg Hr Hm h d m r s x). Qed.
Print Assumptions C51_lookup_complete_partial.

Theorem C51_own_name_has_own_parts :
  forall cfg h m r, rng_ok (h_rng cfg) -> range_ok cfg ->
  get_handle_for_msa cfg (h_run cfg h_genesis h) m = Some r ->
  exists s, from_utf8 (hr_base r) = Some s /\ hr_canonical r = budget cfg s
    /\ parts (display (hr_base r) (hr_suffix r)) = Some (s, hr_suffix r)
    /\ h_min cfg <= hr_suffix r <= h_max cfg /\ (hr_canonical r = [] <-> long_form cfg s).
Proof.
  intros cfg h m r Hr Hm H.
  destruct (handle_facts cfg Hm _ m r (run_inv cfg Hr Hm h) H) as (s & base & e & H1 & Ha & H2 & H3 & H4 & _).
  exists s. rewrite H2. exact (conj H1 (conj eq_refl (conj H4 (conj H3 (long_canonical cfg s base Ha))))).
Qed.
Print Assumptions C51_own_name_has_own_parts.

Theorem C51_unique_partial :
  forall cfg h m m' r r', rng_ok (h_rng cfg) -> range_ok cfg ->
  get_handle_for_msa cfg (h_run cfg h_genesis h) m = Some r ->
  get_handle_for_msa cfg (h_run cfg h_genesis h) m' = Some r' ->
  hr_canonical r <> [] -> hr_canonical r = hr_canonical r' -> hr_suffix r = hr_suffix r' -> m = m'.
Proof. intros cfg h m m' r r' Hr Hm. exact (unique_lemma cfg Hr Hm h m m' r r'). Qed.
Print Assumptions C51_unique_partial.

(** A call that does not act on an MSA leaves its handle alone. *)
Theorem C51_others_untouched :
  forall cfg h x m, rng_ok (h_rng cfg) -> range_ok cfg -> acts_on x <> Some m ->
  get_handle_for_msa cfg (h_run cfg h_genesis (h ++ [x])) m = get_handle_for_msa cfg (h_run cfg h_genesis h) m.
Proof. intros cfg h x m Hr Hm. exact (isolated_lemma cfg Hr Hm h x m). Qed.
Print Assumptions C51_others_untouched.

(** An accepted claim or change gives exactly the requested base, with the
    suffix that was announced as next, in one new announcement; the new name
    resolves. *)
Theorem C51_claim_gives_handle :
  forall cfg h x k f p st', rng_ok (h_rng cfg) -> range_ok cfg ->
  h_apply cfg (h_run cfg h_genesis h) x = Ok st' -> claim_of (hx_call x) = Some (k, f, p) ->
  exists m s y, acts_on x = Some m /\ from_utf8 (hp_base p) = Some s
    /\ head (get_next_suffixes cfg (h_run cfg h_genesis h) (hp_base p) 1) = Some y
    /\ get_handle_for_msa cfg st' m = Some {| hr_base := hp_base p; hr_canonical := budget cfg s; hr_suffix := y |}
    /\ claimed st' = claimed (h_run cfg h_genesis h) ++ [(m, display (hp_base p) y)]
    /\ (budget cfg s <> [] -> get_msa_id_for_handle cfg st' (display (hp_base p) y) = Some m).
Proof. intros cfg h x k f p st' Hr Hm. exact (claim_effect_lemma cfg Hr Hm h x k f p st'). Qed.
Print Assumptions C51_claim_gives_handle.

Example C51_case :
  let st := h_run toy h_genesis [claim_at 1 1 foo 50; claim_at 2 2 foo 50; claim_at 3 3 bar 50; call_at 60 2 RetireHandle] in
  get_handle_for_msa toy st 1 = Some {| hr_base := foo; hr_canonical := foo; hr_suffix := 10 |}
  /\ get_handle_for_msa toy st 2 = None
  /\ get_handle_for_msa toy st 3 = Some {| hr_base := bar; hr_canonical := bar; hr_suffix := 10 |}
  /\ get_msa_id_for_handle toy st (display foo 10) = Some 1 /\ get_msa_id_for_handle toy st (display foo 12) = None.
Proof. repeat (split; [vm_compute; reflexivity|]). vm_compute. reflexivity. Qed.

(** The restriction matters: in the runtime, two base handles whose canonical
    forms exceed 32 bytes share the empty canonical base. Six Hangul syllables
    have a canonical form of twelve letters, 36 bytes. MSA 1 holds the first
    handle; after MSA 2 claims the second, the name of MSA 1 resolves to MSA 2. *)
Definition hangul1 : list N := utf8 [44032; 44032; 44032; 44032; 44032; 44032].
Definition hangul2 : list N := utf8 [44032; 44060; 44060; 44060; 44060; 44060].
Definition hangul_run : HState := h_run rt h_genesis [claim_at 1 1 hangul1 50; claim_at 2 2 hangul2 50].
Theorem C51_long_forms_refuted :
  exists h m m' r, m <> m'
    /\ get_handle_for_msa rt (h_run rt h_genesis h) m = Some r
    /\ is_ok (validate_base_handle (hr_base r)) = true
    /\ get_msa_id_for_handle rt (h_run rt h_genesis h) (display (hr_base r) (hr_suffix r)) = Some m'.
Proof.
  exists [claim_at 1 1 hangul1 50; claim_at 2 2 hangul2 50], 1, 2, {| hr_base := hangul1; hr_canonical := []; hr_suffix := 68 |}.
  split; [discriminate|]. repeat (split; [vm_compute; reflexivity|]). vm_compute. reflexivity.
Qed.
Print Assumptions C51_long_forms_refuted.

(** ** C52: the suffix budget is exact *)
(** When exactly a claim is accepted. [budget cfg s] is the canonical base. *)
Theorem C52_claim_accepted_iff :
  forall cfg h env o k f p, rng_ok (h_rng cfg) -> range_ok cfg ->
  is_ok (h_dispatch cfg env (h_run cfg h_genesis h) o (ClaimHandle k f p)) = true <->
  (exists who, o = Some who)
  /\ exists m s, claim_allowed cfg env (h_run cfg h_genesis h) k f p m s
                 /\ get_handle_for_msa cfg (h_run cfg h_genesis h) m = None.
Proof. intros cfg h env o k f p Hr Hm. exact (dispatch_claim_iff cfg Hr Hm env _ o k f p (run_inv cfg Hr Hm h)). Qed.
Print Assumptions C52_claim_accepted_iff.

Theorem C52_change_accepted_iff :
  forall cfg h env o k f p, rng_ok (h_rng cfg) -> range_ok cfg ->
  is_ok (h_dispatch cfg env (h_run cfg h_genesis h) o (ChangeHandle k f p)) = true <->
  (exists who, o = Some who)
  /\ exists m s, claim_allowed cfg env (h_run cfg h_genesis h) k f p m s
                 /\ get_handle_for_msa cfg (h_run cfg h_genesis h) m <> None.
Proof. intros cfg h env o k f p Hr Hm. exact (dispatch_change_iff cfg Hr Hm env _ o k f p (run_inv cfg Hr Hm h)). Qed.
Print Assumptions C52_change_accepted_iff.

Theorem C52_exhausted_partial :
  forall cfg h env o k f p m s, rng_ok (h_rng cfg) -> range_ok cfg ->
  (exists who, o = Some who) -> len (hp_base p) <= 32 -> he_msa_of env k = Some m ->
  he_block env < hp_exp p < wrap_add u32_max (he_block env) (h_window cfg) ->
  h_verify cfg f k (wrap_binary_data (enc_handle p)) = true ->
  acceptable cfg (hp_base p) s -> get_handle_for_msa cfg (h_run cfg h_genesis h) m = None ->
  used cfg (budget cfg s) (claimed (h_run cfg h_genesis h)) = N.to_nat (h_max cfg + 1 - h_min cfg) ->
  h_dispatch cfg env (h_run cfg h_genesis h) o (ClaimHandle k f p) = Err HSuffixesExhausted.
Proof. intros cfg h env o k f p m s Hr Hm. exact (exhausted_lemma cfg Hr Hm h env o k f p m s). Qed.
Print Assumptions C52_exhausted_partial.

Theorem C52_never_over_budget_partial :
  forall cfg h b, rng_ok (h_rng cfg) -> range_ok cfg ->
  (used cfg b (claimed (h_run cfg h_genesis h)) <= N.to_nat (h_max cfg + 1 - h_min cfg))%nat.
Proof. intros cfg h b Hr Hm. exact (budget_bound_lemma cfg Hr Hm h b). Qed.
Print Assumptions C52_never_over_budget_partial.

Example C52_case :
  let st := h_run toy h_genesis [claim_at 1 1 foo 50; claim_at 2 2 foo 50; claim_at 3 3 foo 50] in
  h_apply toy st (claim_at 4 4 foo 50) = Err HSuffixesExhausted /\ is_ok (h_apply toy st (claim_at 4 4 bar 50)) = true.
Proof. split; vm_compute; reflexivity. Qed.

(** Canonical forms over 32 bytes draw on one shared budget: a base that was
    never claimed can be exhausted. *)
Theorem C52_long_forms_refuted :
  exists cfg h x k f p s, rng_ok (h_rng cfg) /\ range_ok cfg
    /\ claim_of (hx_call x) = Some (k, f, p) /\ from_utf8 (hp_base p) = Some s
    /\ Forall (fun md => forall s' y, parts (snd md) = Some (s', y) -> form cfg s' <> form cfg s) (claimed (h_run cfg h_genesis h))
    /\ h_apply cfg (h_run cfg h_genesis h) x = Err HSuffixesExhausted.
Proof.
  exists toy, [claim_at 1 1 hangul1 50; claim_at 2 2 hangul1 50; claim_at 3 3 hangul1 50], (claim_at 4 4 hangul2 50), 4, 4,
    {| hp_base := hangul2; hp_exp := 50 |}, [44032; 44060; 44060; 44060; 44060; 44060].
  split; [exact toy_rng_ok|]. split; [exact toy_range_ok|]. split; [reflexivity|]. split; [vm_compute; reflexivity|].
  split; [|vm_compute; reflexivity].
  match goal with |- Forall ?P ?l => let v := eval vm_compute in l in replace l with v by (vm_compute; reflexivity) end.
  repeat constructor; intros s' y H; vm_compute in H; injection H as <- _; vm_compute; discriminate.
Qed.
Print Assumptions C52_long_forms_refuted.

(** ** C53: suffixes are never re-issued *)
(** No two announcements, of the whole history, have the same canonical form
    and the same suffix; in particular no display handle is announced twice. *)
Theorem C53_never_reissued :
  forall cfg h l1 m d l2 m' d' l3 s x s' x', rng_ok (h_rng cfg) -> range_ok cfg ->
  claimed (h_run cfg h_genesis h) = l1 ++ (m, d) :: l2 ++ (m', d') :: l3 ->
  parts d = Some (s, x) -> parts d' = Some (s', x') -> form cfg s = form cfg s' -> x <> x'.
Proof. intros cfg h l1 m d l2 m' d' l3 s x s' x' Hr Hm. exact (never_twice_lemma cfg Hr Hm h l1 m d l2 m' d' l3 s x s' x'). Qed.
Print Assumptions C53_never_reissued.

Theorem C53_display_handles_distinct :
  forall cfg h, rng_ok (h_rng cfg) -> range_ok cfg -> NoDup (map snd (claimed (h_run cfg h_genesis h))).
Proof. intros cfg h Hr Hm. exact (displays_nodup_lemma cfg Hr Hm h). Qed.
Print Assumptions C53_display_handles_distinct.

Theorem C53_suffixes_in_range :
  forall cfg h m d, rng_ok (h_rng cfg) -> range_ok cfg -> (m, d) ∈ claimed (h_run cfg h_genesis h) ->
  exists s x, parts d = Some (s, x) /\ h_min cfg <= x <= h_max cfg.
Proof. intros cfg h m d Hr Hm. exact (claimed_parts cfg Hr Hm h m d). Qed.
Print Assumptions C53_suffixes_in_range.

Example C53_case :
  claimed (h_run toy h_genesis [claim_at 1 1 foo 50; call_at 60 1 RetireHandle; claim_at 61 1 foo 99])
  = [(1, display foo 10); (1, display foo 12)].
Proof. vm_compute. reflexivity. Qed.

(** ** C54: handles cannot be retired early *)
(** After an accepted claim or change for an MSA, and until another call acts on
    that MSA, a retire_handle transaction of one of its keys is accepted exactly
    from the expiration of the claim on. *)
Theorem C54_no_early_retirement :
  forall cfg h1 x k f p st1 h2 y m, rng_ok (h_rng cfg) -> range_ok cfg ->
  h_apply cfg (h_run cfg h_genesis h1) x = Ok st1 -> claim_of (hx_call x) = Some (k, f, p) -> acts_on x = Some m ->
  Forall (fun z => acts_on z <> Some m) h2 ->
  hx_top y = true -> hx_call y = RetireHandle -> acts_on y = Some m ->
  is_ok (h_apply cfg (h_run cfg h_genesis (h1 ++ x :: h2)) y) = true <-> hp_exp p <= he_block (hx_env y).
Proof. intros cfg h1 x k f p st1 h2 y m Hr Hm. exact (no_early_lemma cfg Hr Hm h1 x k f p st1 h2 y m). Qed.
Print Assumptions C54_no_early_retirement.

Example C54_case :
  let st := h_run toy h_genesis [claim_at 1 1 foo 50; claim_at 2 2 foo 50] in
  is_ok (h_apply toy st (call_at 49 1 RetireHandle)) = false /\ is_ok (h_apply toy st (call_at 50 1 RetireHandle)) = true.
Proof. split; vm_compute; reflexivity. Qed.

(** retire_handle from inside another call (a batch, a proxy) is not checked,
    and change_handle retires at any time. *)
Theorem C54_inner_call_refuted :
  exists h x d, hx_top x = false /\ he_block (hx_env x) < 50
    /\ hs_events (h_run toy h_genesis h) = [HandleClaimed 1 d]
    /\ h = [claim_at 1 1 foo 50]
    /\ hs_events (h_run toy h_genesis (h ++ [x])) = [HandleClaimed 1 d; HandleRetired 1 d].
Proof.
  exists [claim_at 1 1 foo 50], {| hx_env := env_at 2; hx_top := false; hx_origin := Some 1; hx_call := RetireHandle |}, (display foo 10).
  split; [reflexivity|]. split; [reflexivity|]. split; [vm_compute; reflexivity|]. split; [reflexivity|]. vm_compute. reflexivity.
Qed.
Print Assumptions C54_inner_call_refuted.

(** ** C55: handle characters are restricted *)
Theorem C55_characters_partial :
  forall cfg h m r, rng_ok (h_rng cfg) -> range_ok cfg ->
  get_handle_for_msa cfg (h_run cfg h_genesis h) m = Some r ->
  exists s, from_utf8 (hr_base r) = Some s /\ 3 <= len s <= 20 /\ s ∉ reserved_words
    /\ Forall (fun c => c ∉ blocked_characters) s
    /\ 3 <= len (form cfg s) <= 20
    /\ Forall (fun c => c < 65536 -> exists lo hi, (lo, hi) ∈ allowed_ranges /\ lo <= c <= hi) (form cfg s).
Proof.
  intros cfg h m r Hr Hm H.
  destruct (handle_facts cfg Hm _ m r (run_inv cfg Hr Hm h) H) as (s & base & e & H1 & Ha & _).
  exists s. destruct Ha as (_ & H2 & H3 & H4 & H5 & H6).
  exact (conj H1 (conj H2 (conj H3 (conj H4 (conj H5 (Forall_impl _ _ _ H6 allowed_in_range)))))).
Qed.
Print Assumptions C55_characters_partial.

(** Only the low 16 bits of a character are checked: U+1F916 passes as U+F916. *)
Theorem C55_outside_ranges_refuted :
  exists h m r s c, get_handle_for_msa rt (h_run rt h_genesis h) m = Some r
    /\ from_utf8 (hr_base r) = Some s /\ c ∈ s /\ c ∈ form rt s
    /\ forallb (fun lh => negb ((fst lh <=? c) && (c <=? snd lh))) allowed_ranges = true.
Proof.
  exists [claim_at 1 1 (utf8 [98; 129302; 99]) 50], 1,
    {| hr_base := utf8 [98; 129302; 99]; hr_canonical := utf8 [98; 129302; 99]; hr_suffix := 15 |}, [98; 129302; 99], 129302.
  split; [vm_compute; reflexivity|]. split; [vm_compute; reflexivity|]. split; [right; left|]. split.
  - replace (form rt [98; 129302; 99]) with [98; 129302; 99] by (vm_compute; reflexivity). right. left.
  - vm_compute. reflexivity.
Qed.
Print Assumptions C55_outside_ranges_refuted.

(** Reserved words are compared before canonicalisation: "Admin" can be claimed
    although it has the canonical form of the reserved word "admin". *)
Theorem C55_reserved_word_refuted :
  exists h m r s w, get_handle_for_msa rt (h_run rt h_genesis h) m = Some r
    /\ from_utf8 (hr_base r) = Some s /\ w ∈ reserved_words /\ form rt s = form rt w.
Proof.
  exists [claim_at 1 1 [65; 100; 109; 105; 110] 50], 1,
    {| hr_base := [65; 100; 109; 105; 110]; hr_canonical := [97; 100; 109; 49; 110]; hr_suffix := 41 |},
    [65; 100; 109; 105; 110], [97; 100; 109; 105; 110].
  split; [vm_compute; reflexivity|]. split; [vm_compute; reflexivity|]. split; [left|]. vm_compute. reflexivity.
Qed.
Print Assumptions C55_reserved_word_refuted.

(** ** C56: display names split back *)
Theorem C56_split_back :
  forall s x d, Forall scalar s -> 46 ∉ s -> x <= u16_max -> build_full_display_handle s x = Ok d ->
  exists u, from_utf8 d = Some u /\ split_display_name u = Some (s, x).
Proof. intros s x d Hs Hd Hx H. exact (build_split_lemma s x d Hs Hd Hx H). Qed.
Print Assumptions C56_split_back.

(** A display handle of a base of at most 32 bytes always fits. *)
Theorem C56_build_total :
  forall s x, len (utf8 s) <= 32 -> x <= u16_max -> build_full_display_handle s x = Ok (display (utf8 s) x).
Proof. intros s x H Hx. exact (build_total_lemma s x H Hx). Qed.
Print Assumptions C56_build_total.

(** Two bases or suffixes never give the same display handle. *)
Theorem C56_display_injective :
  forall s x s' x', Forall scalar s -> 46 ∉ s -> x <= u16_max -> Forall scalar s' -> 46 ∉ s' -> x' <= u16_max ->
  display (utf8 s) x = display (utf8 s') x' -> s = s' /\ x = x'.
Proof. exact display_inj. Qed.
Print Assumptions C56_display_injective.

Example C56_case : build_full_display_handle foo 42 = Ok [102; 111; 111; 46; 52; 50] /\ parts [102; 111; 111; 46; 52; 50] = Some (foo, 42).
Proof. split; vm_compute; reflexivity. Qed.

(** The converse fails: other spellings of the suffix resolve as well, so
    "foo.+10" and "foo.010" name the owner of "foo.10". *)
Theorem C56_other_spellings_refuted :
  exists h d d', d <> d' /\ get_msa_id_for_handle toy (h_run toy h_genesis h) d = Some 1
    /\ get_msa_id_for_handle toy (h_run toy h_genesis h) d' = Some 1
    /\ claimed (h_run toy h_genesis h) = [(1, d)].
Proof.
  exists [claim_at 1 1 foo 50], (display foo 10), (foo ++ [46; 43; 48; 49; 48]).
  split; [vm_compute; discriminate|]. split; [vm_compute; reflexivity|]. split; vm_compute; reflexivity.
Qed.
Print Assumptions C56_other_spellings_refuted.

(** ** C57: a handle changes only with its owner's consent *)
Theorem C57_changes_are_authorised :
  forall cfg h x m, rng_ok (h_rng cfg) -> range_ok cfg ->
  get_handle_for_msa cfg (h_run cfg h_genesis (h ++ [x])) m <> get_handle_for_msa cfg (h_run cfg h_genesis h) m ->
  acts_on x = Some m /\
  match hx_call x with
  | ClaimHandle k f p | ChangeHandle k f p =>
      he_msa_of (hx_env x) k = Some m /\ h_verify cfg f k (wrap_binary_data (enc_handle p)) = true
      /\ he_block (hx_env x) < hp_exp p
  | RetireHandle => exists who, hx_origin x = Some who /\ he_msa_of (hx_env x) who = Some m
  end.
Proof. intros cfg h x m Hr Hm. exact (authorised_lemma cfg Hr Hm h x m). Qed.
Print Assumptions C57_changes_are_authorised.

(** ** C58: a signed claim takes effect once *)
(** As a claim, within transactions that claim and retire only. *)
Theorem C58_claim_not_replayed_partial :
  forall cfg h1 x k f p st1 h2 y f' m, rng_ok (h_rng cfg) -> range_ok cfg ->
  h_apply cfg (h_run cfg h_genesis h1) x = Ok st1 -> hx_call x = ClaimHandle k f p -> acts_on x = Some m ->
  StronglySorted (fun a c => he_block (hx_env a) <= he_block (hx_env c)) (x :: h2 ++ [y]) ->
  Forall (fun z => hx_top z = true /\ forall k f p, hx_call z <> ChangeHandle k f p) h2 ->
  hx_call y = ClaimHandle k f' p -> acts_on y = Some m ->
  is_ok (h_apply cfg (h_run cfg h_genesis (h1 ++ x :: h2)) y) = false.
Proof. intros cfg h1 x k f p st1 h2 y f' m Hr Hm. exact (no_replay_lemma cfg Hr Hm h1 x k f p st1 h2 y f' m). Qed.
Print Assumptions C58_claim_not_replayed_partial.

Example C58_case :
  is_ok (h_apply toy h_genesis (claim_at 1 1 foo 50)) = true
  /\ is_ok (h_apply toy (h_run toy h_genesis [claim_at 1 1 foo 50; call_at 50 1 RetireHandle]) (claim_at 50 1 foo 50)) = false.
Proof. split; vm_compute; reflexivity. Qed.

(** change_handle accepts the same signed payload, again and again: anyone can
    resubmit a claim as a change until it expires, and each time the owner's
    handle moves to the next suffix, until the base is exhausted. *)
Theorem C58_replay_as_change_refuted :
  exists k f p who, who <> k
    /\ let claim := call_at 1 k (ClaimHandle k f p) in
       let again := call_at 2 who (ChangeHandle k f p) in
       claimed (h_run toy h_genesis [claim; again; again]) = [(k, display (hp_base p) 10); (k, display (hp_base p) 12); (k, display (hp_base p) 11)].
Proof. exists 1, 1, {| hp_base := foo; hp_exp := 50 |}, 9. split; [discriminate|]. vm_compute. reflexivity. Qed.
Print Assumptions C58_replay_as_change_refuted.

(** ** C59: the next suffixes are reported exactly *)
(** The query lists, without repetition, suffixes of the range that were never
    given out for that canonical form: [count] of them, or all that remain. With
    C51_claim_gives_handle, the first is the one the next claim gets. *)
Theorem C59_next_suffixes :
  forall cfg h base s n, rng_ok (h_rng cfg) -> range_ok cfg -> from_utf8 base = Some s ->
  let st := h_run cfg h_genesis h in
  NoDup (get_next_suffixes cfg st base n)
  /\ len (get_next_suffixes cfg st base n)
     = N.min n (h_max cfg + 1 - h_min cfg - N.of_nat (used cfg (budget cfg s) (claimed st)))
  /\ forall y, y ∈ get_next_suffixes cfg st base n ->
       h_min cfg <= y <= h_max cfg
       /\ forall m d s' x', (m, d) ∈ claimed st -> parts d = Some (s', x') -> form cfg s' = form cfg s -> x' <> y.
Proof.
  intros cfg h base s n Hr Hm Hs. exact (conj (next_nodup_lemma cfg Hr Hm h base s n Hs)
    (conj (next_length_lemma cfg Hr Hm h base s n Hs) (fun y => next_fresh_lemma cfg Hr Hm h base s n y Hs))).
Qed.
Print Assumptions C59_next_suffixes.

(** Successive claims of one base receive the listed suffixes in order. *)
Theorem C59_list_is_order_of_claims :
  forall cfg h x k f p st' n s, rng_ok (h_rng cfg) -> range_ok cfg ->
  h_apply cfg (h_run cfg h_genesis h) x = Ok st' -> claim_of (hx_call x) = Some (k, f, p) -> from_utf8 (hp_base p) = Some s ->
  exists m y, claimed st' = claimed (h_run cfg h_genesis h) ++ [(m, display (hp_base p) y)]
    /\ get_next_suffixes cfg (h_run cfg h_genesis h) (hp_base p) (n + 1) = y :: get_next_suffixes cfg st' (hp_base p) n.
Proof. intros cfg h x k f p st' n s Hr Hm. exact (next_shift_lemma cfg Hr Hm h x k f p st' n s). Qed.
Print Assumptions C59_list_is_order_of_claims.

Example C59_case :
  get_next_suffixes toy (h_run toy h_genesis [claim_at 1 1 foo 50]) foo 5 = [12; 11]
  /\ get_next_suffixes toy (h_run toy h_genesis [claim_at 1 1 foo 50]) bar 2 = [10; 12].
Proof. split; vm_compute; reflexivity. Qed.

(** ** C99: handle validation agrees with claiming *)
Theorem C99_claimed_handles_validate_partial :
  forall cfg h env o k f p, rng_ok (h_rng cfg) -> range_ok cfg ->
  is_ok (h_dispatch cfg env (h_run cfg h_genesis h) o (ClaimHandle k f p)) = true ->
  validate_handle cfg (hp_base p) = true.
Proof.
  intros cfg h env o k f p Hr Hm H.
  destruct (proj1 (dispatch_claim_iff cfg Hr Hm env _ o k f p (run_inv cfg Hr Hm h)) H) as (_ & m & s & (_ & _ & _ & _ & Ha & _) & _).
  exact (validate_lemma cfg _ s Ha).
Qed.
Print Assumptions C99_claimed_handles_validate_partial.

Theorem C99_validate_iff_partial :
  forall cfg base, validate_handle cfg base = true <->
  exists s, from_utf8 base = Some s /\ 3 <= len s <= 20 /\ s ∉ reserved_words
    /\ Forall (fun c => c ∉ blocked_characters) s /\ Forall (fun c => allowed_char c = true) (form cfg s).
Proof. exact validate_iff. Qed.
Print Assumptions C99_validate_iff_partial.

(** validate_handle is documented to perform all the checks of a claim, but it
    leaves out the length of the canonical form and the length in bytes: three
    spaces validate, and no claim of them is ever accepted. *)
Theorem C99_validate_refuted :
  exists base, (forall cfg, validate_handle cfg base = true)
    /\ forall cfg h env o k f e, rng_ok (h_rng cfg) -> range_ok cfg ->
       is_ok (h_dispatch cfg env (h_run cfg h_genesis h) o (ClaimHandle k f {| hp_base := base; hp_exp := e |})) = false.
Proof.
  exists [32; 32; 32]. split; [reflexivity|]. intros cfg h env o k f e Hr Hm.
  exact (not_claimed cfg Hr Hm h env o k f {| hp_base := [32; 32; 32]; hp_exp := e |} [32; 32; 32] eq_refl eq_refl).
Qed.
Print Assumptions C99_validate_refuted.

(** ** C93: signed payloads *)
Theorem C93_handle_signature_binds_payload_partial :
  forall p q, Forall (fun b => b < 256) (hp_base p) -> Forall (fun b => b < 256) (hp_base q) ->
  len (hp_base p) <= 32 -> len (hp_base q) <= 32 -> hp_exp p <= u32_max -> hp_exp q <= u32_max ->
  wrap_binary_data (enc_handle p) = wrap_binary_data (enc_handle q) -> p = q.
Proof. exact handle_payload_inj. Qed.
Print Assumptions C93_handle_signature_binds_payload_partial.

(** The signature that claims a handle is, byte for byte, one that deletes a
    page: the length of the handle is read as the schema id, its first character
    as the page id, the next four as the content hash. *)
Theorem C93_handle_as_page_delete_refuted :
  exists p q s, acceptable rt (hp_base p) s /\ dp2_schema q = 5 /\ dp2_page q = 12 /\ hp_exp p = dp2_exp q
    /\ wrap_binary_data (enc_handle p) = wrap_binary_data (enc_delete_v2 q).
Proof.
  exists {| hp_base := [48; 98; 99; 100; 101]; hp_exp := 50 |}, {| dp2_schema := 5; dp2_page := 12; dp2_hash := 425269464; dp2_exp := 50 |}, [48; 98; 99; 100; 101].
  split; [apply acceptable_iff; split; [vm_compute; reflexivity|]; split; vm_compute; reflexivity|].
  split; [reflexivity|]. split; [reflexivity|]. split; [reflexivity|]. vm_compute. reflexivity.
Qed.
Print Assumptions C93_handle_as_page_delete_refuted.
