(** The handles pallet: pallets/handles/src/lib.rs, handles_signed_extension.rs
    and the crate handles-utils (build.rs, constants.rs, converter.rs,
    suffix.rs, validator.rs). *)
From Verif Require Import Prelude Scale XxHash Utf8 HConfusables.

(** [Error<T>] (lib.rs:143-177), plus a bad origin and rejection by the signed
    extension *)
Inductive HErr :=
| HBadOrigin | HTransactionInvalid
| HInvalidHandleEncoding | HInvalidHandleByteLength | HInvalidHandleCharacterLength
| HHandleIsNotAllowed | HHandleContainsBlockedCharacters
| HHandleDoesNotConsistOfSupportedCharacterSets | HSuffixesExhausted
| HInvalidMessageSourceAccount | HInvalidSignature | HMSAHandleAlreadyExists
| HMSAHandleDoesNotExist | HProofHasExpired | HProofNotYetValid
| HInvalidHandle.

(** A seeded generator: [rng_new seed] is its first state, [rng_range st lo hi]
    a number of [lo..hi] and the next state. A dependency (oorandom::Rand32). *)
Record Rng := { rng_new : N -> N; rng_range : N -> N -> N -> N * N }.

(** What the code takes from the Unicode tables (crate unicode-normalization):
    the full compatibility decomposition of a character other than a Hangul
    syllable, its canonical combining class, and whether it is a mark. *)
Record Unicode := {
  un_decomp : N -> list N;
  un_ccc : N -> N;
  un_mark : N -> bool
}.

(** [Config] (lib.rs:78-109); [h_verify] is MultiSignature::verify,
    [h_confusable] the table of confusable characters ([confusable] below in
    the runtime) *)
Record HCfg := {
  h_min : N;
  h_max : N;
  h_window : N;
  h_rng : Rng;
  h_unicode : Unicode;
  h_confusable : N -> N;
  h_verify : N -> N -> list N -> bool
}.

(** common/primitives/src/handles.rs:11-36 *)
Definition HANDLE_CHARS_MIN : N := 3.
Definition HANDLE_CHARS_MAX : N := 20.
Definition HANDLE_BYTES_MAX : N := 32.
Definition SUFFIX_MAX_DIGITS : N := 5.
(** handles-utils/src/converter.rs:20: '.' *)
Definition HANDLE_DELIMITER : N := 46.

(** common/primitives/src/handles.rs:43-51 *)
Record HPayload := { hp_base : list N; hp_exp : N }.
Definition enc_handle (p : HPayload) : list N := enc_bytes (hp_base p) ++ enc_u32 (hp_exp p).

(** common/primitives/src/handles.rs:60-72 *)
Record HResponse := { hr_base : list N; hr_canonical : list N; hr_suffix : N }.

(** [Event<T>], lib.rs:179-197 *)
Inductive HEvent :=
| HandleClaimed (msa : N) (handle : list N)
| HandleRetired (msa : N) (handle : list N).

(** Storage, lib.rs:116-155: (canonical base, suffix) to MSA id; MSA id to
    (display handle, expiration); canonical base to (index, suffix minimum).
    And the deposited events, oldest first. *)
Record HState := {
  hs_owner : gmap (list N * N) N;
  hs_name : gmap N (list N * N);
  hs_index : gmap (list N) (N * N);
  hs_events : list HEvent
}.
Definition h_genesis : HState := {| hs_owner := ∅; hs_name := ∅; hs_index := ∅; hs_events := [] |}.

(** The block, and [MsaInfoProvider::ensure_valid_msa_key] (the MSA id of a key). *)
Record HEnv := { he_block : N; he_msa_of : N -> option N }.

(** ** handles-utils *)

(** constants.rs:6-28 *)
Definition allowed_ranges : list (N * N) :=
  [ (32, 127); (128, 255); (256, 383); (880, 1023); (1024, 1279); (1280, 1327); (1424, 1535)
  ; (1536, 1791); (2304, 2431); (2432, 2559); (3584, 3711); (4352, 4607); (7680, 7935)
  ; (7936, 8191); (12352, 12447); (12448, 12543); (13312, 19903); (19968, 40959)
  ; (44032, 55215); (63744, 64255); (64336, 65023) ].
(** build.rs:12-14 and validator.rs:66: [range.contains(&(c as u16))]; the cast
    keeps the low 16 bits *)
Definition allowed_char (c : N) : bool :=
  let u := c mod 65536 in existsb (fun r => (fst r <=? u) && (u <=? snd r)) allowed_ranges.

(** build.rs:38-63: the map from homoglyph to the first character of its line *)
Definition confusables : list (N * N) :=
  flat_map (fun line =>
    match line with
    | [] => []
    | norm :: others =>
        if allowed_char norm then map (fun h => (h, norm)) (List.filter allowed_char others) else []
    end) confusable_rows.
Fixpoint assoc (k : N) (l : list (N * N)) : option N :=
  match l with
  | [] => None
  | (k', v) :: l' => if k =? k' then Some v else assoc k l'
  end.
(** converter.rs:51: [CONFUSABLES.get(&character).map_or(character, ..)] *)
Definition confusable (c : N) : N := match assoc c confusables with Some v => v | None => c end.

(** [char::is_whitespace]: the Unicode property White_Space *)
Definition is_whitespace (c : N) : bool :=
  ((9 <=? c) && (c <=? 13)) || (c =? 32) || (c =? 133) || (c =? 160) || (c =? 5760)
  || ((8192 <=? c) && (c <=? 8202)) || (c =? 8232) || (c =? 8233) || (c =? 8239) || (c =? 8287) || (c =? 12288).

(** [to_ascii_lowercase] *)
Definition ascii_lower (c : N) : N := if (65 <=? c) && (c <=? 90) then c + 32 else c.

(** [nfkd()]: decomposition (Hangul syllables by arithmetic, else the table),
    then canonical ordering: a character with a non-zero class moves before the
    characters of larger class that end the text so far. *)
Definition decompose (un : Unicode) (c : N) : list N :=
  if (44032 <=? c) && (c <? 55204) then
    let s := c - 44032 in
    let t := s mod 28 in
    [4352 + s / 588; 4449 + (s mod 588) / 28] ++ (if t =? 0 then [] else [4519 + t])
  else un_decomp un c.
(** [acc] is the text so far, last character first *)
Fixpoint ccc_push (un : Unicode) (c : N) (acc : list N) : list N :=
  match acc with
  | h :: acc' =>
      if (0 <? un_ccc un c) && (un_ccc un c <? un_ccc un h) then h :: ccc_push un c acc' else c :: acc
  | [] => [c]
  end.
Definition nfkd (un : Unicode) (s : list N) : list N :=
  rev (fold_left (fun acc c => ccc_push un c acc) (flat_map (decompose un) s) []).

(** converter.rs:104-110 *)
Definition strip_unicode_whitespace (s : list N) : list N := List.filter (fun c => negb (is_whitespace c)) s.
(** converter.rs:65-70 *)
Definition strip_diacriticals (un : Unicode) (s : list N) : list N := List.filter (fun c => negb (un_mark un c)) (nfkd un s).
(** converter.rs:48-53 *)
Definition replace_confusables (cf : N -> N) (s : list N) : list N := map cf s.
(** converter.rs:34-39 *)
Definition convert_to_canonical (cf : N -> N) (un : Unicode) (s : list N) : list N :=
  map ascii_lower (replace_confusables cf (strip_diacriticals un (strip_unicode_whitespace s))).

(** converter.rs:82-94 *)
Definition split_display_name (s : list N) : option (list N * N) :=
  match split_on HANDLE_DELIMITER s with
  | [base; suffix] => match parse_u16 suffix with Some n => Some (base, n) | None => None end
  | _ => None
  end.

(** suffix.rs:58-68; [finish] is a u64 *)
Definition generate_seed (canonical : list N) : N := xxh64 0 (utf8 canonical ++ [0; 0; 0; 0]).

(** [slice::swap] *)
Definition swap (l : list N) (a b : nat) : list N := <[a := nth b l 0]> (<[b := nth a l 0]> l).

(** suffix.rs:30-44: one turn per suffix, from [min + k - 1] down to [min]. The
    iterator is lazy; the list is everything it would yield. [i + 1] is a u16
    addition and the draw is cut to a u16. *)
Fixpoint shuffle (r : Rng) (mn : N) (k : nat) (st : N) (indices : list N) : list N :=
  match k with
  | O => []
  | S k' =>
      let i := mn + N.of_nat k' in
      let (d, st') := rng_range r st mn (wrap_add u16_max i 1) in
      let j := d mod 65536 in
      let indices' := swap indices k' (N.to_nat (j - mn)) in
      nth k' indices' 0 :: shuffle r mn k' st' indices'
  end.
Definition range_size (mn mx : N) : nat := N.to_nat (mx + 1 - mn).
Definition generate_unique_suffixes (r : Rng) (mn mx : N) (canonical : list N) : list N :=
  shuffle r mn (range_size mn mx) (rng_new r (generate_seed canonical))
    (map (fun k => mn + N.of_nat k) (seq 0 (range_size mn mx))).

(** validator.rs:12-13: admin, everyone, all, administrator, mod, moderator,
    here, channel *)
Definition reserved_words : list (list N) :=
  [ [97; 100; 109; 105; 110]
  ; [101; 118; 101; 114; 121; 111; 110; 101]
  ; [97; 108; 108]
  ; [97; 100; 109; 105; 110; 105; 115; 116; 114; 97; 116; 111; 114]
  ; [109; 111; 100]
  ; [109; 111; 100; 101; 114; 97; 116; 111; 114]
  ; [104; 101; 114; 101]
  ; [99; 104; 97; 110; 110; 101; 108] ].
(** validator.rs:16-17: double quote, hash, percent, parentheses, comma, full
    stop, colon, semicolon, angle brackets, at sign, backslash, backquote, braces *)
Definition blocked_characters : list N := [34; 35; 37; 40; 41; 44; 46; 58; 59; 60; 62; 64; 92; 96; 123; 125].
(** validator.rs:37-39 *)
Definition is_reserved_handle (s : list N) : bool := bool_decide (s ∈ reserved_words).
(** validator.rs:50-52; binary search in a sorted constant is membership *)
Definition contains_blocked_characters (s : list N) : bool := existsb (fun c => bool_decide (c ∈ blocked_characters)) s.
(** validator.rs:63-67 *)
Definition consists_of_supported (s : list N) : bool := forallb allowed_char s.

Section h.
Variable cfg : HCfg.

(** lib.rs:779-785: the canonical string, and the canonical base; a string of
    more than 32 bytes has the empty base ([unwrap_or_default]) *)
Definition canonical_base (base : list N) : list N * list N :=
  let c := convert_to_canonical (h_confusable cfg) (h_unicode cfg) base in
  (c, if len (utf8 c) <=? HANDLE_BYTES_MAX then utf8 c else []).

(** lib.rs:227-247 *)
Definition next_suffix_index (st : HState) (base : list N) : res HErr N :=
  match hs_index st !! base with
  | None => Ok 0
  | Some (current, mn) =>
      if negb (h_min cfg =? mn) then Ok 0
      else match chk_add u16_max current 1 with
           | None => Err HSuffixesExhausted
           | Some n => Ok n
           end
  end.

(** lib.rs:262-271, 317-320 *)
Definition verify_signature_mortality (block expires : N) : res HErr unit :=
  let limit := wrap_add u32_max block (h_window cfg) in
  ensure! (expires <? limit) else HProofNotYetValid in
  ensure! (block <? expires) else HProofHasExpired in
  Ok tt.

(** lib.rs:284-295 *)
Definition verify_signed_payload (proof signer : N) (payload : list N) : res HErr unit :=
  ensure! h_verify cfg proof signer (wrap_binary_data payload) else HInvalidSignature in Ok tt.

(** lib.rs:305-308 *)
Definition verify_max_handle_byte_length (handle : list N) : res HErr unit :=
  ensure! (len handle <=? HANDLE_BYTES_MAX) else HInvalidHandleByteLength in Ok tt.

(** lib.rs:329-342 *)
Definition generate_suffix (canonical : list N) (cursor : N) : res HErr N :=
  match generate_unique_suffixes (h_rng cfg) (h_min cfg) (h_max cfg) canonical !! N.to_nat cursor with
  | Some s => Ok s
  | None => Err HSuffixesExhausted
  end.

(** lib.rs:657-677 *)
Definition validate_base_handle (base : list N) : res HErr (list N) :=
  match from_utf8 base with
  | None => Err HInvalidHandleEncoding
  | Some s =>
      ensure! ((HANDLE_CHARS_MIN <=? len s) && (len s <=? HANDLE_CHARS_MAX)) else HInvalidHandleCharacterLength in
      ensure! negb (is_reserved_handle s) else HHandleIsNotAllowed in
      ensure! negb (contains_blocked_characters s) else HHandleContainsBlockedCharacters in
      Ok s
  end.
(** lib.rs:679-688 *)
Definition validate_supported (s : list N) : res HErr unit :=
  ensure! consists_of_supported s else HHandleDoesNotConsistOfSupportedCharacterSets in Ok tt.
(** lib.rs:690-699 *)
Definition validate_canonical_length (s : list N) : res HErr unit :=
  ensure! ((HANDLE_CHARS_MIN <=? len s) && (len s <=? HANDLE_CHARS_MAX)) else HInvalidHandleCharacterLength in Ok tt.

(** lib.rs:712-723; a display handle holds 32 + 5 + 1 bytes *)
Definition build_full_display_handle (base : list N) (suffix : N) : res HErr (list N) :=
  let full := utf8 base ++ [HANDLE_DELIMITER] ++ digits suffix in
  ensure! (len full <=? HANDLE_BYTES_MAX + SUFFIX_MAX_DIGITS + 1) else HInvalidHandleEncoding in
  Ok full.

Definition emit (st : HState) (e : HEvent) : HState :=
  {| hs_owner := hs_owner st; hs_name := hs_name st; hs_index := hs_index st; hs_events := hs_events st ++ [e] |}.

(** lib.rs:604-654 [do_claim_handle] *)
Definition do_claim (st : HState) (m : N) (p : HPayload) : res HErr (HState * list N) :=
  ensure! match hs_name st !! m with None => true | Some _ => false end else HMSAHandleAlreadyExists in
  let! s := validate_base_handle (hp_base p) in
  let (canonical, base) := canonical_base s in
  let! _ := validate_supported canonical in
  let! _ := validate_canonical_length canonical in
  let! index := next_suffix_index st base in
  let! suffix := generate_suffix canonical index in
  let! display := build_full_display_handle s suffix in
  Ok ({| hs_owner := <[(base, suffix) := m]> (hs_owner st);
         hs_name := <[m := (display, hp_exp p)]> (hs_name st);
         hs_index := <[base := (index, h_min cfg)]> (hs_index st);
         hs_events := hs_events st |}, display).

(** lib.rs:735-755 [do_retire_handle] *)
Definition do_retire (st : HState) (m : N) : res HErr (HState * list N) :=
  match hs_name st !! m with
  | None => Err HMSAHandleDoesNotExist
  | Some (display, _) =>
      match from_utf8 display with
      | None => Err HInvalidHandleEncoding
      | Some s =>
          match split_display_name s with
          | None => Err HInvalidHandle
          | Some (b, suffix) =>
              let (_, base) := canonical_base b in
              Ok ({| hs_owner := delete (base, suffix) (hs_owner st);
                     hs_name := delete m (hs_name st);
                     hs_index := hs_index st;
                     hs_events := hs_events st |}, display)
          end
      end
  end.

Inductive HCall :=
| ClaimHandle (key proof : N) (p : HPayload)
| RetireHandle
| ChangeHandle (key proof : N) (p : HPayload).

(** the checks that [claim_handle] and [change_handle] share: lib.rs:382-394,
    467-479 *)
Definition claim_checks (env : HEnv) (key proof : N) (p : HPayload) : res HErr N :=
  let! _ := verify_max_handle_byte_length (hp_base p) in
  match he_msa_of env key with
  | None => Err HInvalidMessageSourceAccount
  | Some m =>
      let! _ := verify_signature_mortality (he_block env) (hp_exp p) in
      let! _ := verify_signed_payload proof key (enc_handle p) in
      Ok m
  end.

(** lib.rs:374-400 [claim_handle] *)
Definition claim_handle (env : HEnv) (st : HState) (key proof : N) (p : HPayload) : res HErr HState :=
  let! m := claim_checks env key proof p in
  let! (st', display) := do_claim st m p in
  Ok (emit st' (HandleClaimed m display)).

(** lib.rs:419-430 [retire_handle] *)
Definition retire_handle (env : HEnv) (st : HState) (who : N) : res HErr HState :=
  match he_msa_of env who with
  | None => Err HInvalidMessageSourceAccount
  | Some m =>
      let! (st', display) := do_retire st m in
      Ok (emit st' (HandleRetired m display))
  end.

(** lib.rs:459-493 [change_handle] *)
Definition change_handle (env : HEnv) (st : HState) (key proof : N) (p : HPayload) : res HErr HState :=
  let! m := claim_checks env key proof p in
  match hs_name st !! m with
  | None => Err HMSAHandleDoesNotExist
  | Some _ =>
      let! (st1, old) := do_retire st m in
      let! (st2, display) := do_claim (emit st1 (HandleRetired m old)) m p in
      Ok (emit st2 (HandleClaimed m display))
  end.

(** Dispatch; [ensure_signed] first. [None] is any other origin. *)
Definition h_dispatch (env : HEnv) (st : HState) (origin : option N) (c : HCall) : res HErr HState :=
  match origin with
  | None => Err HBadOrigin
  | Some who =>
      match c with
      | ClaimHandle key proof p => claim_handle env st key proof p
      | RetireHandle => retire_handle env st who
      | ChangeHandle key proof p => change_handle env st key proof p
      end
  end.

(** handles_signed_extension.rs:42-60 [validate_retire_handle] and 110-130
    [validate], [pre_dispatch] *)
Definition extension_ok (env : HEnv) (st : HState) (who : N) (c : HCall) : bool :=
  match c with
  | RetireHandle =>
      match he_msa_of env who with
      | None => false
      | Some m =>
          match hs_name st !! m with
          | None => false
          | Some (_, expiration) => expiration <=? he_block env
          end
      end
  | _ => true
  end.

(** One call of a history: submitted as a transaction of its own ([hx_top]), so
    that the signed extension runs first, or from inside another call. *)
Record HX := { hx_env : HEnv; hx_top : bool; hx_origin : option N; hx_call : HCall }.

Definition h_apply (st : HState) (x : HX) : res HErr HState :=
  match hx_top x, hx_origin x with
  | true, Some who =>
      ensure! extension_ok (hx_env x) st who (hx_call x) else HTransactionInvalid in
      h_dispatch (hx_env x) st (hx_origin x) (hx_call x)
  | _, _ => h_dispatch (hx_env x) st (hx_origin x) (hx_call x)
  end.
(** A failing call changes nothing. *)
Definition h_step (st : HState) (x : HX) : HState :=
  match h_apply st x with Ok st' => st' | Err _ => st end.
Definition h_run (st : HState) (h : list HX) : HState := fold_left h_step h st.

(** ** Queries *)

(** lib.rs:507-522 *)
Definition get_handle_for_msa (st : HState) (m : N) : option HResponse :=
  match hs_name st !! m with
  | None => None
  | Some (display, _) =>
      match from_utf8 display with
      | None => None
      | Some s =>
          match split_display_name s with
          | None => None
          | Some (b, suffix) =>
              Some {| hr_base := utf8 b; hr_canonical := snd (canonical_base b); hr_suffix := suffix |}
          end
      end
  end.

(** lib.rs:584-592 *)
Definition get_msa_id_for_handle (st : HState) (display : list N) : option N :=
  let s := match from_utf8 display with Some s => s | None => [] end in
  match split_display_name s with
  | None => None
  | Some (b, suffix) => hs_owner st !! (snd (canonical_base b), suffix)
  end.

(** lib.rs:540-574: the elements at positions [index .. index + count] of the
    sequence; the loop stops when it has [count] of them *)
Definition get_next_suffixes (st : HState) (base : list N) (count : N) : list N :=
  let s := match from_utf8 base with Some s => s | None => [] end in
  let (canonical, cb) := canonical_base s in
  let index := match next_suffix_index st cb with Ok i => i | Err _ => 0 end in
  take (N.to_nat count) (drop (N.to_nat index) (generate_unique_suffixes (h_rng cfg) (h_min cfg) (h_max cfg) canonical)).

(** lib.rs:761-776 *)
Definition validate_handle (handle : list N) : bool :=
  match validate_base_handle handle with
  | Ok s => is_ok (validate_supported (fst (canonical_base s)))
  | Err _ => false
  end.
End h.

(** ** The runtime's generator: oorandom 11, [Rand32] (PCG32), used at
    suffix.rs:36-40. A dependency, modelled after its published source; the
    rejection loop of [rand_range] gets 64 turns. *)
Definition pcg_inc : N := 2885390081777926815.
Definition pcg_next (s : N) : N := add64 (mul64 s 6364136223846793005) pcg_inc.
Definition pcg_out (s : N) : N :=
  let rot := N.shiftr s 59 in
  let x := N.land (N.shiftr (N.lxor (N.shiftr s 18) s) 27) u32_max in
  N.lor (N.shiftr x rot) (N.land (N.shiftl x (32 - rot)) u32_max).
Definition pcg_new (seed : N) : N := pcg_next (add64 (pcg_next 0) seed).
Fixpoint pcg_reject (fuel : nat) (st k t m : N) : N * N :=
  match fuel with
  | O => (m, st)
  | S fuel' => if N.land m u32_max <? t then pcg_reject fuel' (pcg_next st) k t (pcg_out st * k) else (m, st)
  end.
Definition pcg_range (st lo hi : N) : N * N :=
  let k := hi - lo in
  let m := pcg_out st * k in
  let st1 := pcg_next st in
  let (m', st') :=
    if N.land m u32_max <? k then pcg_reject 64 st1 k ((4294967296 - k) mod k) m else (m, st1) in
  (N.shiftr m' 32 + lo, st').
Definition rand32 : Rng := {| rng_new := pcg_new; rng_range := pcg_range |}.

(** runtime/common/src/constants.rs:86, 113-117, runtime/frequency/src/lib.rs:1125-1143:
    suffixes 10 to 99; the window is 100 blocks *)
Definition runtime_handles (un : Unicode) (verify : N -> N -> list N -> bool) : HCfg :=
  {| h_min := 10; h_max := 99; h_window := 100; h_rng := rand32; h_unicode := un; h_confusable := confusable; h_verify := verify |}.

(** The values that the project's own tests expect
    (handles-utils/src/tests/suffix_tests.rs:5-22): seeds and sequences for
    "abcdefg" and "gfedcba". *)
Example seed_abcdefg : generate_seed [97; 98; 99; 100; 101; 102; 103] = 15079896798642598352.
Proof. vm_compute. reflexivity. Qed.
Example suffixes_abcdefg :
  take 10 (generate_unique_suffixes rand32 10 99 [97; 98; 99; 100; 101; 102; 103]) = [23; 65; 16; 53; 25; 75; 29; 26; 10; 87].
Proof. vm_compute. reflexivity. Qed.
Example suffixes_gfedcba :
  take 10 (generate_unique_suffixes rand32 10 99 [103; 102; 101; 100; 99; 98; 97]) = [64; 95; 99; 87; 44; 74; 20; 93; 43; 46].
Proof. vm_compute. reflexivity. Qed.
