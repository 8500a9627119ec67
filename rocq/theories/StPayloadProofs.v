(** What a storage signature binds, and the runtime's parameters. *)
From Verif Require Import Prelude Scale ScaleDec CommonTypes SigModel MsaModel MsaSpec MsaProofs XxHash StModel StSpec StProofs.

(** runtime/common/src/constants.rs:322-338, runtime/frequency/src/lib.rs:1095-1120 *)
Definition st_runtime (blake : list N -> list N) (verify : N -> N -> list N -> bool) : StCfg :=
  {| f_max_item_page := 10260; f_max_page := 1024; f_max_blob := 1024; f_max_page_id := 32; f_max_actions := 5;
     f_window := 14400; f_blake128 := blake; f_twox64 := twox_64; f_key := twox_128; f_key_len := 16; f_page := xxh64 0;
     f_verify := verify |}.

Lemma runtime_sizes blake verify : sizes_ok (st_runtime blake verify).
Proof. done. Qed.

Definition blake_ok (blake : list N -> list N) : Prop :=
  (forall a b, a <= u64_max -> b <= u64_max -> blake (enc_u64 a ++ [58; 58]) = blake (enc_u64 b ++ [58; 58]) -> a = b) /\
  (forall x, length (blake x) = 16%nat).

Lemma runtime_hashes blake verify : blake_ok blake -> hashes_ok (st_runtime blake verify).
Proof.
  intros [Hb Hl]. split; [|split; [|split; [|split]]].
  - exact Hb.
  - exact Hl.
  - exact twox_64_length.
  - change (twox_64 itemized_prefix <> twox_64 paginated_prefix). vm_compute. discriminate.
  - exact twox_128_length.
Qed.

(** Every reachable state of the MSA pallet has ids that fit. *)
Lemma reachable_env_ok mcfg h env : v_msa env = msa_run mcfg msa_genesis h -> env_ok env.
Proof.
  intros Hv k m Hc. rewrite Hv in Hc.
  assert (Hmax : ms_max (msa_run mcfg msa_genesis h) <= u64_max).
  { apply (msa_run_ind mcfg (fun st => ms_max st <= u64_max)); [cbn; unfold u64_max; lia|].
    intros env' st o call st' ? Hd. apply dispatch_key_effect in Hd. destruct Hd; lia. }
  apply ids_inv_run in Hc. apply issued_le in Hc. lia.
Qed.

(** ** Signed bytes *)
Lemma action_app_inj a b r s :
  match a with Delete i => i <= u16_max | Add _ => True end -> match b with Delete i => i <= u16_max | Add _ => True end ->
  enc_action a ++ r = enc_action b ++ s -> a = b /\ r = s.
Proof.
  intros Ha Hb H. destruct a as [d|i], b as [d'|i']; unfold enc_action in H; rewrite <- !app_assoc in H;
    apply (le_bytes_app_inj 1) in H as [Ht H]; try done.
  - apply enc_bytes_app_inj in H as [-> ->]. done.
  - apply (le_bytes_app_inj 2) in H as [-> ->]; [done|by apply u16_lt..].
Qed.

Lemma actions_ok_forall cfg l : actions_ok cfg l = true ->
  Forall (fun a => match a with Delete i => i <= u16_max | Add _ => True end) l.
Proof.
  intros H. unfold actions_ok in H. apply andb_prop in H as [_ H]. rewrite forallb_forall in H.
  apply Forall_forall. intros a Ha. apply elem_of_list_In, H in Ha. destruct a; [done|]. cbn in Ha. lia.
Qed.

Lemma actions_inj cfg a b : actions_ok cfg a = true -> actions_ok cfg b = true -> enc_actions a = enc_actions b -> a = b.
Proof.
  intros Ha%actions_ok_forall Hb%actions_ok_forall H. unfold enc_actions in H. apply compact_app_inj in H as [Hl H].
  assert (Hlen : length a = length b) by (unfold len in Hl; lia). clear Hl.
  revert b Hb H Hlen. induction a as [|x a IH]; intros [|y b] Hb H Hlen; try done.
  inversion Ha; inversion Hb; subst. cbn [map concat] in H. apply action_app_inj in H as [-> H]; [|done..].
  f_equal. apply IH; auto.
Qed.

Lemma u32_fits n : (n <=? u32_max) = true -> n < 256 ^ N.of_nat 4.
Proof. intros H%N.leb_le. unfold u32_max in H. change (256 ^ N.of_nat 4) with 4294967296. lia. Qed.

Lemma storage_signature_lemma cfg c c' k s bytes e e' bytes' :
  call_ok cfg c = true -> call_ok cfg c' = true -> call_kind c = call_kind c' ->
  signature_of c = Some (k, s, bytes, e) -> signature_of c' = Some (k, s, bytes', e') ->
  wrap_binary_data bytes = wrap_binary_data bytes' -> c = c'.
Proof.
  intros Hc Hc' Hk Hs Hs' Hw. apply wrap_inj in Hw.
  destruct c, c'; try done; cbn in Hc, Hc'; repeat (apply andb_prop in Hc as [Hc ?]); repeat (apply andb_prop in Hc' as [Hc' ?]);
    injection Hs as -> -> <- <-; injection Hs' as -> -> <- <-; f_equal;
    destruct p as [], p0 as []; cbn in *;
    unfold enc_itemized, enc_itemized_v2, enc_upsert, enc_upsert_v2, enc_delete, enc_delete_v2 in Hw; cbn in Hw;
    repeat (apply compact_app_inj in Hw as [-> Hw]);
    first [apply (le_bytes_app_inj 4) in Hw as [-> Hw]; [|by apply u32_fits..]
          |apply (le_bytes_inj 4) in Hw; [|by apply u32_fits..]; by subst]; try done.
  - apply (actions_inj cfg) in Hw; [by subst|done..].
  - rewrite <- (app_nil_r (enc_bytes _)), <- (app_nil_r (enc_bytes up_data0)) in Hw. apply enc_bytes_app_inj in Hw as [-> _]. done.
  - apply (actions_inj cfg) in Hw; [by subst|done..].
  - rewrite <- (app_nil_r (enc_bytes _)), <- (app_nil_r (enc_bytes up2_data0)) in Hw. apply enc_bytes_app_inj in Hw as [-> _]. done.
Qed.
