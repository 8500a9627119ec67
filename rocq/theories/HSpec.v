(** Vocabulary for the handle properties. *)
From Verif Require Import Prelude Scale Utf8 HModel.

(** A generator that stays in the range it is asked for. *)
Definition rng_ok (r : Rng) : Prop :=
  forall st lo hi, lo < hi -> lo <= fst (rng_range r st lo hi) < hi.

(** A sensible suffix range. *)
Definition range_ok (cfg : HCfg) : Prop := h_min cfg <= h_max cfg < u16_max.

(** The full display handle: base, a full stop, the suffix in decimal. *)
Definition display (base : list N) (suffix : N) : list N := base ++ [46] ++ digits suffix.

Section spec.
Variable cfg : HCfg.

(** The canonical form of a base handle given as characters, and the budget it
    draws on: forms of more than 32 bytes all share one. *)
Definition form (s : list N) : list N := convert_to_canonical (h_confusable cfg) (h_unicode cfg) s.
Definition long_form (s : list N) : Prop := 32 < len (utf8 (form s)).
Definition budget (s : list N) : list N := if len (utf8 (form s)) <=? 32 then utf8 (form s) else [].

(** The base, as characters, and the suffix that a display handle announces. *)
Definition parts (d : list N) : option (list N * N) :=
  match from_utf8 d with Some s => split_display_name s | None => None end.

(** What a base handle must look like to be claimed. *)
Definition acceptable (base : list N) (s : list N) : Prop :=
  from_utf8 base = Some s /\ 3 <= len s <= 20 /\ s ∉ reserved_words
  /\ Forall (fun c => c ∉ blocked_characters) s
  /\ 3 <= len (form s) <= 20
  /\ Forall (fun c => allowed_char c = true) (form s).

(** The key, proof and payload of a claim or change. *)
Definition claim_of (c : HCall) : option (N * N * HPayload) :=
  match c with
  | ClaimHandle k f p | ChangeHandle k f p => Some (k, f, p)
  | RetireHandle => None
  end.

(** The MSA on whose handle a call acts. *)
Definition acts_on (x : HX) : option N :=
  match hx_call x with
  | ClaimHandle k _ _ | ChangeHandle k _ _ => he_msa_of (hx_env x) k
  | RetireHandle => match hx_origin x with Some who => he_msa_of (hx_env x) who | None => None end
  end.

(** The display handles announced as claimed, oldest first. *)
Definition claimed (st : HState) : list (N * list N) :=
  flat_map (fun e => match e with HandleClaimed m d => [(m, d)] | _ => [] end) (hs_events st).

(** How many of these announcements drew on a budget. *)
Definition used (b : list N) (l : list (N * list N)) : nat :=
  length (List.filter (fun md => match parts (snd md) with
                            | Some (s, _) => bool_decide (budget s = b)
                            | None => false
                            end) l).

(** The handle that the events say an MSA has. *)
Definition announced (m : N) (es : list HEvent) : option (list N) :=
  fold_left (fun cur e =>
    match e with
    | HandleClaimed m' d => if m' =? m then Some d else cur
    | HandleRetired m' _ => if m' =? m then None else cur
    end) es None.

(** When a claim or change for MSA [m] and base [s] passes every check other
    than whether the MSA already has a handle. *)
Definition claim_allowed (env : HEnv) (st : HState) (key proof : N) (p : HPayload) (m : N) (s : list N) : Prop :=
  len (hp_base p) <= 32 /\ he_msa_of env key = Some m
  /\ he_block env < hp_exp p < wrap_add u32_max (he_block env) (h_window cfg)
  /\ h_verify cfg proof key (wrap_binary_data (enc_handle p)) = true
  /\ acceptable (hp_base p) s
  /\ (used (budget s) (claimed st) < N.to_nat (h_max cfg + 1 - h_min cfg))%nat.

(** The suffixes of a base, in the order in which they are given out. *)
Definition sequence (s : list N) : list N :=
  generate_unique_suffixes (h_rng cfg) (h_min cfg) (h_max cfg) (form s).
End spec.
