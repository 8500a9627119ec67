(** Properties C01, C02, C03: the replay registry of signed payloads. *)
From Verif Require Import Prelude SigModel SigSpec SigProofs.

(** C01. In every history with non-decreasing blocks: once a signature has
    been accepted, any later submission of it with an expiry that is not later
    is refused. *)
Theorem C01_signature_single_use :
  forall maxsig window (h : list SigEv) i j first again,
    2 <= maxsig -> blocks_nondecreasing h -> (i < j)%nat ->
    h !! i = Some first -> h !! j = Some again ->
    (sig_run maxsig window sig_empty h).2 !! i = Some None ->
    se_sig again = se_sig first -> se_exp again <= se_exp first ->
    exists err, (sig_run maxsig window sig_empty h).2 !! j = Some (Some err).
Proof. exact no_replay_lemma. Qed.
Print Assumptions C01_signature_single_use.

(** A history that meets the hypotheses, with the runtime's window of 100:
    signature 7 is accepted at block 5, registry of size 2 is then filled and
    recycled, and signature 7 is submitted again after its eviction. *)
Definition h_example : list SigEv :=
  [ {| se_block := 5; se_sig := 7; se_exp := 10 |};
    {| se_block := 6; se_sig := 8; se_exp := 90 |};
    {| se_block := 11; se_sig := 9; se_exp := 90 |};
    {| se_block := 11; se_sig := 7; se_exp := 10 |} ].
Example C01_example :
  (sig_run 2 100 sig_empty h_example).2 = [None; None; None; Some ProofHasExpired].
Proof. vm_compute. reflexivity. Qed.

(** C01/C02/C03: the stored linked list decides exactly like a memory of the
    last [maxsig] accepted signatures. *)
Theorem C02_registry_is_a_fifo_memory_partial :
  forall maxsig window h,
    2 <= maxsig -> (sig_run maxsig window sig_empty h).2 = spec_run maxsig window [] h.
Proof. exact sig_run_refines_lemma. Qed.
Print Assumptions C02_registry_is_a_fifo_memory_partial.

(** C02. Never corrupt. *)
Theorem C02_registry_never_corrupted_partial :
  forall maxsig window h,
    2 <= maxsig -> Some SignatureRegistryCorrupted ∉ (sig_run maxsig window sig_empty h).2.
Proof. exact never_corrupted_lemma. Qed.
Print Assumptions C02_registry_never_corrupted_partial.

(** C02. Never larger than configured (the newest one lives in the pointer). *)
Theorem C02_registry_bounded_partial :
  forall maxsig window h,
    2 <= maxsig ->
    N.of_nat (size (sr_list (sig_run maxsig window sig_empty h).1)) < maxsig /\
    (forall p, sr_ptr (sig_run maxsig window sig_empty h).1 = Some p -> sp_count p <= maxsig).
Proof. exact size_bound_lemma. Qed.
Print Assumptions C02_registry_bounded_partial.

(** C02. The limit error is given only when [maxsig] signatures have been
    accepted before and the [maxsig]-th last of them has not expired. *)
Theorem C02_limit_error_only_when_full_partial :
  forall maxsig window h j ev,
    2 <= maxsig -> h !! j = Some ev ->
    (sig_run maxsig window sig_empty h).2 !! j = Some (Some SignatureRegistryLimitExceeded) ->
    let acc := accepted (take j h) (take j (sig_run maxsig window sig_empty h).2) in
    maxsig <= len acc /\
    exists s e, acc !! (length acc - N.to_nat maxsig)%nat = Some (s, e) /\ se_block ev <= e.
Proof. exact limit_lemma. Qed.
Print Assumptions C02_limit_error_only_when_full_partial.

Definition h_example_full : list SigEv :=
  [ {| se_block := 5; se_sig := 7; se_exp := 10 |};
    {| se_block := 6; se_sig := 8; se_exp := 90 |};
    {| se_block := 10; se_sig := 9; se_exp := 90 |};
    {| se_block := 11; se_sig := 9; se_exp := 90 |};
    {| se_block := 11; se_sig := 8; se_exp := 90 |} ].
Example C02_example :
  (sig_run 2 100 sig_empty h_example_full).2 =
  [None; None; Some SignatureRegistryLimitExceeded; None; Some SignatureAlreadySubmitted].
Proof. vm_compute. reflexivity. Qed.

(** C02 needs the capacity to be at least two: with a capacity of one the
    second submission, whatever it is, reports corruption. (The runtime
    configures 50_000.) *)
Theorem C02_capacity_one_refuted :
  exists h, (sig_run 1 100 sig_empty h).2 = [None; Some SignatureRegistryCorrupted].
Proof.
  exists [ {| se_block := 5; se_sig := 7; se_exp := 10 |}; {| se_block := 20; se_sig := 8; se_exp := 90 |} ].
  vm_compute. reflexivity.
Qed.
Print Assumptions C02_capacity_one_refuted.

(** C03. The acceptance window, as long as block numbers are not about to
    overflow. *)
Theorem C03_acceptance_window :
  forall maxsig window reg now s exp reg',
    now + window <= u32_max ->
    register_signature maxsig window reg now s exp = Ok reg' -> now < exp < now + window.
Proof. exact window_lemma. Qed.
Print Assumptions C03_acceptance_window.

(** C03. Each of the two window errors is given exactly outside the window. *)
Theorem C03_window_errors_exact :
  forall maxsig window reg now s exp,
    now + window <= u32_max ->
    (register_signature maxsig window reg now s exp = Err ProofNotYetValid <-> now + window <= exp) /\
    (register_signature maxsig window reg now s exp = Err ProofHasExpired <-> exp <= now /\ exp < now + window).
Proof. exact window_errors_lemma. Qed.
Print Assumptions C03_window_errors_exact.

Example C03_example :
  is_ok (register_signature 50000 100 sig_empty 1000 1 1099) = true /\
  is_ok (register_signature 50000 100 sig_empty 1000 1 1001) = true /\
  is_ok (register_signature 50000 100 sig_empty 1000 1 1000) = false /\
  is_ok (register_signature 50000 100 sig_empty 1000 1 1100) = false.
Proof. vm_compute. repeat split; reflexivity. Qed.
