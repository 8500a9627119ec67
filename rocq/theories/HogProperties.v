(** Property C153: can one MSA take a name away from everybody? *)
From Verif Require Import Prelude Scale Utf8 HModel HSpec HProofs HFinal HProperties HogSpec HogProofs.

(** Claims of and changes to names of other forms, and retirements, do not get
    in the way: if a name can be claimed, then after any such calls every MSA
    without a handle can claim every acceptable name of the same form with a
    valid signature. Missing: the same after others claimed names of this form,
    which is false, see below. *)
Theorem C153_still_free_partial :
  forall cfg h h2 env env' o o' k f p k' f' p' m s s', rng_ok (h_rng cfg) -> range_ok cfg ->
  is_ok (h_dispatch cfg env (h_run cfg h_genesis h) o (ClaimHandle k f p)) = true -> from_utf8 (hp_base p) = Some s ->
  other_names cfg (budget cfg s) h2 ->
  (exists who, o' = Some who) -> len (hp_base p') <= 32 -> he_msa_of env' k' = Some m ->
  he_block env' < hp_exp p' < wrap_add u32_max (he_block env') (h_window cfg) ->
  h_verify cfg f' k' (wrap_binary_data (enc_handle p')) = true -> acceptable cfg (hp_base p') s' ->
  budget cfg s' = budget cfg s -> get_handle_for_msa cfg (h_run cfg h_genesis (h ++ h2)) m = None ->
  is_ok (h_dispatch cfg env' (h_run cfg h_genesis (h ++ h2)) o' (ClaimHandle k' f' p')) = true.
Proof. intros cfg h h2 env env' o o' k f p k' f' p' m s s' Hr Hm. exact (still_free cfg Hr Hm h h2 env env' o o' k f p k' f' p' m s s'). Qed.
Print Assumptions C153_still_free_partial.

(** One signed payload of one MSA is enough to use up all suffixes of a name:
    anybody, whoever [who] is, sends it once as a claim and as many times as
    there are suffixes as a change, all in one block. From then on, whatever
    happens, every claim of and every change to a name of that form is refused,
    by everybody and for ever. *)
Theorem C153_taken_away_refuted :
  forall cfg h env who k f p m s h2 x k' f' p' s', rng_ok (h_rng cfg) -> range_ok cfg ->
  len (hp_base p) <= 32 -> he_msa_of env k = Some m ->
  he_block env < hp_exp p < wrap_add u32_max (he_block env) (h_window cfg) ->
  h_verify cfg f k (wrap_binary_data (enc_handle p)) = true -> acceptable cfg (hp_base p) s ->
  claim_of (hx_call x) = Some (k', f', p') -> from_utf8 (hp_base p') = Some s' -> budget cfg s' = budget cfg s ->
  exists e, h_apply cfg
    (h_run cfg h_genesis (h ++ hog (N.to_nat (h_max cfg + 1 - h_min cfg)) env who k f p ++ h2)) x = Err e.
Proof. intros cfg h env who k f p m s h2 x k' f' p' s' Hr Hm. exact (hogged cfg Hr Hm h env who k f p m s h2 x k' f' p' s'). Qed.
Print Assumptions C153_taken_away_refuted.

(** The deployed chain has 90 suffixes per name: with one signed claim of "foo"
    by MSA 1, account 9 closes "foo" to everybody. *)
Example C153_deployed :
  forall h2 x k' f' p', claim_of (hx_call x) = Some (k', f', p') -> hp_base p' = foo ->
  exists e, h_apply rt (h_run rt h_genesis (hog 90 (env_at 5) 9 1 7 {| hp_base := foo; hp_exp := 50 |} ++ h2)) x = Err e.
Proof.
  intros h2 x k' f' p' Hc Hp.
  apply (C153_taken_away_refuted rt [] (env_at 5) 9 1 7 {| hp_base := foo; hp_exp := 50 |} 1 foo h2 x k' f' p' foo).
  - exact (proj1 C50_runtime_generator).
  - exact (proj2 C50_runtime_generator _ _).
  - vm_compute. discriminate.
  - reflexivity.
  - split; vm_compute; reflexivity.
  - reflexivity.
  - assert (Hf : form rt foo = [102; 48; 48]) by (vm_compute; reflexivity). unfold acceptable. rewrite Hf.
    split; [vm_compute; reflexivity|]. split; [split; vm_compute; discriminate|].
    split; [apply (bool_decide_unpack _); vm_compute; exact I|].
    split; [apply (bool_decide_unpack _); vm_compute; exact I|].
    split; [split; vm_compute; discriminate|]. apply (bool_decide_unpack _); vm_compute; exact I.
  - exact Hc.
  - rewrite Hp. vm_compute. reflexivity.
  - reflexivity.
Qed.

(** With three suffixes, computed: the name was free for MSA 2 before, and is
    not afterwards; another name still is, and claims of that name do not
    matter to this one. *)
Example C153_met :
  is_ok (h_apply toy h_genesis (claim_at 6 2 foo 50)) = true
  /\ (let h := hog 3 (env_at 5) 9 1 1 {| hp_base := foo; hp_exp := 50 |} in
      h_apply toy (h_run toy h_genesis h) (claim_at 6 2 foo 50) = Err HSuffixesExhausted
      /\ is_ok (h_apply toy (h_run toy h_genesis h) (claim_at 6 2 bar 50)) = true)
  /\ (let h2 := [claim_at 5 1 bar 50; claim_at 5 3 bar 50] in
      other_names toy (budget toy foo) h2
      /\ is_ok (h_apply toy (h_run toy h_genesis h2) (claim_at 6 2 foo 50)) = true).
Proof.
  split; [vm_compute; reflexivity|]. split; [split; vm_compute; reflexivity|]. split; [|vm_compute; reflexivity].
  assert (Hb : from_utf8 bar = Some bar) by (vm_compute; reflexivity).
  assert (Hn : bool_decide (budget toy bar = budget toy foo) = false) by (vm_compute; reflexivity).
  apply bool_decide_eq_false in Hn.
  unfold other_names. repeat constructor; intros k f p s [= <- <- <-] Hs; cbn [hp_base] in Hs; congruence.
Qed.
