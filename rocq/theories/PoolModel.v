(** What a node does with transactions before they are in a block: the checks of the
    transaction pool (the [validate] half of the runtime's extensions and of the
    passkey pallet), the tags by which the pool orders transactions, and the RPC
    that lists the nonces an account's pending transactions wait for. The [apply]
    half, by which a block accepts a transaction, is in RtModel.v. *)
From Coq Require Import String Ascii.
From Verif Require Import Prelude Scale Utf8 MsaModel HModel FeeModel RtModel.

(** sp_runtime's [ValidTransaction] without longevity and propagation, which no
    extension of the repository changes. *)
Record Validity := { v_priority : N; v_requires : list (list N); v_provides : list (list N) }.
Definition v_default : Validity := {| v_priority := 0; v_requires := []; v_provides := [] |}.
(** [ValidTransaction::combine_with] *)
Definition combine_with (a b : Validity) : Validity :=
  {| v_priority := sat_add u64_max (v_priority a) (v_priority b);
     v_requires := v_requires a ++ v_requires b; v_provides := v_provides a ++ v_provides b |}.

(** The bytes of an ASCII text *)
Definition text (s : string) : list N := map N_of_ascii (list_ascii_of_string s).

(** runtime/common/src/extensions/check_nonce.rs:132: [Encode::encode(&(who, nonce))] *)
Definition nonce_tag (who n : N) : list N := enc_account who ++ enc_u32 n.
(** [ValidTransaction::with_tag_prefix(prefix).and_provides(account)]: the encoding
    of the pair *)
Definition prefix_tag (prefix : string) (who : N) : list N := enc_bytes (text prefix) ++ enc_account who.

(** check_nonce.rs:119-146 [validate] *)
Definition validate_nonce (st : RtState) (who n : N) : res TxErr Validity :=
  ensure! nonce st who <=? n else IStale in
  Ok {| v_priority := 0;
        v_requires := if nonce st who <? n then [nonce_tag who (n - 1)] else [];
        v_provides := [nonce_tag who n] |}.

(** pallets/msa/src/lib.rs:1849-1866 [CheckFreeExtrinsicUse::validate] with the tags
    of lines 1648, 1675, 1714 and 1770, and
    pallets/handles/src/handles_signed_extension.rs:42-60, 120-130, which adds none. *)
Definition free_tags (who : N) (c : MsaCall) : list (list N) :=
  match c with
  | RevokeByDelegator _ => [prefix_tag "DelegatorDelegationRevocation" who]
  | RevokeByProvider _ => [prefix_tag "ProviderDelegationRevocation" who]
  | DeletePublicKey _ => [prefix_tag "KeyRevocation" who]
  | RetireMsa => [prefix_tag "MSARetirement" who]
  | _ => []
  end.
Definition validate_free (st : RtState) (who : N) (c : RtCall) : res TxErr Validity :=
  match c with
  | RMsa c =>
      match msa_validate (env_msa st) (rs_msa st) (Signed who) c with
      | Ok _ => Ok {| v_priority := 0; v_requires := []; v_provides := free_tags who c |}
      | Err e => Err (IMsa e)
      end
  | RHandles c => ensure! extension_ok (env_h st) (rs_h st) who c else IHandles in Ok v_default
  | _ => Ok v_default
  end.

Section pool.
Context (cfg : RtCfg).
(** pallet_transaction_payment's [get_priority] of a call, a length, a tip and a fee *)
Context (prio : RtCall -> N -> N -> N -> N).

(** pallets/frequency-tx-payment/src/lib.rs:361-368 [tip] *)
Definition counted_tip (c : RtCall) (tip : N) : N := match c with RPay _ | RPayBatch _ => 0 | _ => tip end.
(** lib.rs:372-433: the amount that [withdraw_fee] returns *)
Definition fee_of (c : RtCall) (n tip : N) : N :=
  match c with
  | RPay x => default 0 (capacity_charge (map get_stable_weight [x]) n)
  | RPayBatch l => default 0 (capacity_charge (map get_stable_weight l) n)
  | _ => r_token_fee cfg c n tip
  end.
(** lib.rs:473-490 [validate]. The fee is withdrawn here as well; the pool throws
    the changed state away, but the next extension of the tuple sees it. *)
Definition validate_payment (st : RtState) (who : N) (c : RtCall) (n tip : N) : res TxErr (RtState * Validity) :=
  let! st1 := withdraw_fee cfg st who c n tip in
  Ok (st1, {| v_priority := prio c n (counted_tip c tip) (fee_of c n tip); v_requires := []; v_provides := [] |}).

(** runtime/frequency/src/lib.rs:290-301 [SignedExtra]: nonce, payment, free MSA
    calls, handles. The checks of frame_system (sender, versions, genesis, era,
    weight) are left out, as in [tx_apply]. *)
Definition tx_validate (st : RtState) (t : Tx) : res TxErr Validity :=
  let! v1 := validate_nonce st (tx_who t) (tx_nonce t) in
  let! (st1, v2) := validate_payment st (tx_who t) (tx_call t) (tx_len t) (tx_tip t) in
  let! v3 := validate_free st1 (tx_who t) (tx_call t) in
  Ok (combine_with (combine_with (combine_with v_default v1) v2) v3).

(** pallets/passkey/src/lib.rs:149-169 [validate_unsigned], 251-259, 288-307 *)
Definition passkey_validate (st : RtState) (p : PasskeyPayload) : res TxErr Validity :=
  ensure! negb (r_mainnet cfg) else ICall in
  ensure! passkey_filter (pk_call p) else ICall in
  ensure! r_verify cfg (pk_proof p) (pk_account p) (wrap_binary_data (pk_public_key p)) else IBadSigner in
  let! v1 := validate_nonce st (pk_account p) (pk_nonce p) in
  let! _ := withdraw_token_fee cfg st (pk_account p) (pk_call p) 32 0 in
  let v2 := {| v_priority := prio (pk_call p) 32 0 (r_token_fee cfg (pk_call p) 32 0); v_requires := []; v_provides := [] |} in
  Ok (combine_with (combine_with (combine_with v_default v_default) v1) v2).

(** A transaction of the pool *)
Inductive PoolTx := PSigned (t : Tx) | PPasskey (p : PasskeyPayload).
Definition pool_validate (st : RtState) (x : PoolTx) : res TxErr Validity :=
  match x with PSigned t => tx_validate st t | PPasskey p => passkey_validate st p end.
Definition pool_apply (st : RtState) (x : PoolTx) : res TxErr (RtState * option RtErr) :=
  match x with PSigned t => tx_apply cfg st t | PPasskey p => passkey_apply cfg st p end.
End pool.

(** ** node/service/src/rpc/frequency_rpc.rs *)

(** line 25 *)
Definition max_missing : nat := 1000.
(** lines 94-103: the loop over [pool.ready()]; each transaction by its provided tags *)
Fixpoint walk_ready (account current : N) (ready : list (list (list N))) : N :=
  match ready with
  | [] => current
  | tags :: r =>
      if bool_decide (head tags = Some (nonce_tag account current))
      then walk_ready account (wrap_add u32_max current 1) r
      else walk_ready account current r
  end.
(** lines 107-117: [starts_with], then [Nonce::decode] of the rest, which needs four
    bytes and ignores what follows them *)
Fixpoint strip (pre bs : list N) : option (list N) :=
  match pre, bs with
  | [], _ => Some bs
  | p :: pre', b :: bs' => if p =? b then strip pre' bs' else None
  | _ :: _, [] => None
  end.
Definition future_nonce (account : N) (tags : list (list N)) : option N :=
  match tags with
  | [] => None
  | tag :: _ =>
      match strip (enc_account account) tag with
      | None => None
      | Some rest => if 4 <=? len rest then Some (le_val (firstn 4 rest)) else None
      end
  end.
(** line 118 [sort] *)
Fixpoint insert_sorted (x : N) (l : list N) : list N :=
  match l with [] => [x] | y :: r => if x <=? y then x :: l else y :: insert_sorted x r end.
Definition sort_nonces (l : list N) : list N := foldr insert_sorted [] l.
(** lines 121-129: the inner loop. [room] is what the limit leaves; the result is
    what is pushed, the nonce reached, and whether the function returns here. *)
Fixpoint fill (room : nat) (current target : N) : list N * N * bool :=
  match room with
  | O => ([], current, true)
  | S r =>
      if current <? target then
        let next := wrap_add u32_max current 1 in
        match r with
        | O => ([current], next, true)
        | _ => let '(out, c, stop) := fill r next target in (current :: out, c, stop)
        end
      else ([], current, false)
  end.
(** lines 120-133 *)
Fixpoint fill_all (room : nat) (current : N) (future : list N) : list N :=
  match future with
  | [] => []
  | f :: r =>
      let '(out, c, stop) := fill room current f in
      if stop then out else out ++ fill_all (room - length out) (wrap_add u32_max c 1) r
  end.
(** lines 83-136 [get_missing_nonces]; [ready] and [futures] are the provided tags of
    the pool's transactions. *)
Definition get_missing_nonces (ready futures : list (list (list N))) (account start : N) : list N :=
  fill_all max_missing (walk_ready account start ready) (sort_nonces (omap (future_nonce account) futures)).

(** ** common/primitives/src/rpc.rs *)

(** frame_system's [Phase] and [EventRecord]; the event by its encoding, of which the
    first two bytes are the indices of the pallet and of the event. *)
Inductive Phase := ApplyExtrinsic (i : N) | Finalization | Initialization.
Record EventRecord := { er_phase : Phase; er_pallet : N; er_event : N; er_fields : list N }.
Definition enc_event (e : EventRecord) : list N := er_pallet e :: er_event e :: er_fields e.
Record RpcEvent := { re_phase : option N; re_pallet : N; re_event : N; re_data : list N }.
(** lines 31-50 [From<EventRecord>]: indexing the encoding *)
Definition rpc_event (e : EventRecord) : RpcEvent :=
  let full := enc_event e in
  {| re_phase := match er_phase e with ApplyExtrinsic i => Some i | _ => None end;
     re_pallet := nth 0 full 0; re_event := nth 1 full 0; re_data := skipn 2 full |}.
(** runtime/frequency/src/lib.rs [get_events]: all of them, in order *)
Definition get_events (l : list EventRecord) : list RpcEvent := map rpc_event l.

(** ** common/primitives/src/utils.rs: bytes in JSON *)

(** impl_serde's [serialize] (a dependency): "0x" and two lower-case digits a byte *)
Definition hex_digit (n : N) : N := if n <? 10 then 48 + n else 87 + n.
Definition hex_of_byte (b : N) : list N := [hex_digit (b / 16); hex_digit (b mod 16)].
Definition as_hex (bs : list N) : list N := text "0x" ++ concat (map hex_of_byte bs).
(** impl_serde's [deserialize]: the prefix may be missing, the case does not matter,
    and a missing first digit is zero. Texts with white space, which it skips, are
    not modelled. *)
Definition hex_val (c : N) : option N :=
  if (48 <=? c) && (c <=? 57) then Some (c - 48)
  else if (65 <=? c) && (c <=? 70) then Some (c - 55)
  else if (97 <=? c) && (c <=? 102) then Some (c - 87)
  else None.
(** [half] is the first digit of the byte being read. *)
Fixpoint hex_bytes (half : option N) (s : list N) : option (list N) :=
  match s with
  | [] => Some []
  | c :: r =>
      match hex_val c, half with
      | None, _ => None
      | Some d, None => hex_bytes (Some d) r
      | Some d, Some h => option_map (cons (16 * h + d)) (hex_bytes None r)
      end
  end.
Definition from_hex (s : list N) : option (list N) :=
  let body := match strip (text "0x") s with Some r => r | None => s end in
  hex_bytes (if N.odd (len body) then Some 0 else None) body.

(** lines 84-97 [as_string]; a JSON string is a list of characters. *)
Definition as_string (bs : list N) : option (list N) := from_utf8 bs.
Definition of_string (s : list N) : list N := utf8 s.
(** lines 55-79, 100-128 [as_hex_option] and [as_string_option] of a field that is
    left out of the JSON object when there is none ([skip_serializing_if], [default]:
    common/primitives/src/messages.rs:30-42). The outer option is failure, the inner
    one the absent field. *)
Definition write_hex_field (x : option (list N)) : option (list N) := option_map as_hex x.
Definition read_hex_field (x : option (list N)) : option (option (list N)) :=
  match x with None => Some None | Some s => option_map Some (from_hex s) end.
Definition write_string_field (x : option (list N)) : option (option (list N)) :=
  match x with None => Some None | Some bs => option_map Some (from_utf8 bs) end.
Definition read_string_field (x : option (list N)) : option (list N) :=
  match x with
  | None => None
  | Some s => match utf8 s with [] => None | bs => Some bs end
  end.
