(** The runtime: runtime/frequency/src/lib.rs (call filters, proxy types, signed
    extensions, fee payment), runtime/common/src/extensions/check_nonce.rs,
    pallets/frequency-tx-payment, pallets/passkey, and the pallets of this chain
    composed: each sees the state of the others instead of an arbitrary view.

    Simplifications. The pallets of Substrate are modelled as far as they run
    calls of this chain or move tokens: utility batches, proxies (no delays, no
    deposits), multisigs of threshold one, balance transfers, token fees (given
    by a function; no refund after dispatch). All other calls ([ROther]) change
    nothing here. Weight limits and mortality of transactions are left out. *)
From Verif Require Import Prelude Scale CommonTypes SigModel MsaModel CapModel TrModel StModel HModel ScModel MgModel FeeModel.

(** runtime/common/src/proxy.rs:19-30 *)
Inductive ProxyType := PAny | PNonTransfer | PGovernance | PStaking | PCancelProxy.
Global Instance proxy_type_eq_dec : EqDecision ProxyType.
Proof. solve_decision. Defined.

Inductive BatchKind := Batch | BatchAll | ForceBatch.

(** Pallets of the runtime whose calls are not modelled
    (runtime/frequency/src/lib.rs:1100-1190) *)
Inductive Pallet :=
| PSystem | PParachainSystem | PTimestamp | PSudo | PPreimage | PDemocracy | PCouncil | PTechnicalCommittee
| PTreasury | PScheduler | PSession | PCollatorSelection (set_candidacy_bond : bool) | PMultisig
| PProxy (reject_announcement : bool).

(** pallets/capacity/src/lib.rs:312-405 *)
Inductive CapCall := KStake (target amount : N) | KUnstake (target amount : N) | KWithdraw | KSetEpochLength (n : N).
(** pallets/time-release/src/lib.rs:241-336 *)
Inductive TimeCall := VClaim | VTransfer (dest : N) (s : Sched) | VUpdate (who : N) (l : list Sched) | VClaimFor (who : N).
(** pallet_balances *)
Inductive BalCall := TransferAllowDeath (dest amount : N) | TransferKeepAlive (dest amount : N) | TransferAll (dest : N) (keep_alive : bool).

(** [RuntimeCall] *)
Inductive RtCall :=
| RMsa (c : MsaCall)
| RHandles (c : HCall)
| RStorage (c : StCall)
| RMessages (c : MgCall)
| RSchemas (c : ScCall)
| RCapacity (c : CapCall)
| RTime (c : TimeCall)
| RBalances (c : BalCall)
| RUtility (k : BatchKind) (calls : list RtCall)
| RPay (c : RtCall)
| RPayBatch (calls : list RtCall)
| RProxy (real : N) (force : option ProxyType) (c : RtCall)
| RAddProxy (delegate : N) (t : ProxyType)
| RMultisig1 (others : list N) (c : RtCall)
| ROther (p : Pallet).

Inductive RtErr :=
| XFiltered | XBadOrigin | XBatchTooLong | XNotProxy | XToken
| XMsa (e : MsaErr) | XHandles (e : HErr) | XStorage (e : StErr) | XMessages (e : MgErr) | XSchemas (e : ScErr)
| XCapacity (e : CapErr) | XTime (e : TrErr).

(** [TransactionValidityError] *)
Inductive TxErr :=
| IStale | IFuture | IPayment | INotEligible | IInvalidMsaKey | IMsa (e : ValidityErr) | IHandles
| ICall | IBadSigner.

(** The storage of the whole chain. [rs_nonce]: the nonces of frame_system's
    accounts, absent is zero. [rs_bal]: the token balances, absent is zero; an
    account exists while it has a balance. *)
Record RtState := {
  rs_block : N;
  rs_relay : N;
  rs_nonce : gmap N N;
  rs_bal : gmap N N;
  rs_proxies : gmap N (list (N * ProxyType));
  rs_msa : MsaState;
  rs_sc : ScState;
  rs_h : HState;
  rs_st : StState;
  rs_mg : MgState;
  rs_cap : CapState;
  rs_tr : TrState
}.

(** The configurations of the pallets; the existential deposit;
    MaximumCapacityBatchLength; the token fee of a call by its length and tip
    (pallet_transaction_payment); the account of a multisig; the verification of
    signatures; and whether the council accepts a proposal by an account. *)
Record RtCfg := {
  r_mainnet : bool;
  r_msa : MsaCfg;
  r_sc : ScCfg;
  r_h : HCfg;
  r_st : StCfg;
  r_mg : MgCfg;
  r_cap : CapCfg;
  r_tr : TrCfg;
  r_ed : N;
  r_max_batch : N;
  r_token_fee : RtCall -> N -> N -> N;
  r_multi : N -> list N -> N;
  r_verify : N -> N -> list N -> bool;
  r_council : RtState -> N -> bool
}.

Definition up_msa_ st x := {| rs_block := rs_block st; rs_relay := rs_relay st; rs_nonce := rs_nonce st; rs_bal := rs_bal st; rs_proxies := rs_proxies st; rs_msa := x; rs_sc := rs_sc st; rs_h := rs_h st; rs_st := rs_st st; rs_mg := rs_mg st; rs_cap := rs_cap st; rs_tr := rs_tr st |}.
Definition up_sc_ st x := {| rs_block := rs_block st; rs_relay := rs_relay st; rs_nonce := rs_nonce st; rs_bal := rs_bal st; rs_proxies := rs_proxies st; rs_msa := rs_msa st; rs_sc := x; rs_h := rs_h st; rs_st := rs_st st; rs_mg := rs_mg st; rs_cap := rs_cap st; rs_tr := rs_tr st |}.
Definition up_h_ st x := {| rs_block := rs_block st; rs_relay := rs_relay st; rs_nonce := rs_nonce st; rs_bal := rs_bal st; rs_proxies := rs_proxies st; rs_msa := rs_msa st; rs_sc := rs_sc st; rs_h := x; rs_st := rs_st st; rs_mg := rs_mg st; rs_cap := rs_cap st; rs_tr := rs_tr st |}.
Definition up_st_ st x := {| rs_block := rs_block st; rs_relay := rs_relay st; rs_nonce := rs_nonce st; rs_bal := rs_bal st; rs_proxies := rs_proxies st; rs_msa := rs_msa st; rs_sc := rs_sc st; rs_h := rs_h st; rs_st := x; rs_mg := rs_mg st; rs_cap := rs_cap st; rs_tr := rs_tr st |}.
Definition up_mg_ st x := {| rs_block := rs_block st; rs_relay := rs_relay st; rs_nonce := rs_nonce st; rs_bal := rs_bal st; rs_proxies := rs_proxies st; rs_msa := rs_msa st; rs_sc := rs_sc st; rs_h := rs_h st; rs_st := rs_st st; rs_mg := x; rs_cap := rs_cap st; rs_tr := rs_tr st |}.
Definition up_cap_ st x := {| rs_block := rs_block st; rs_relay := rs_relay st; rs_nonce := rs_nonce st; rs_bal := rs_bal st; rs_proxies := rs_proxies st; rs_msa := rs_msa st; rs_sc := rs_sc st; rs_h := rs_h st; rs_st := rs_st st; rs_mg := rs_mg st; rs_cap := x; rs_tr := rs_tr st |}.
Definition up_tr_ st x := {| rs_block := rs_block st; rs_relay := rs_relay st; rs_nonce := rs_nonce st; rs_bal := rs_bal st; rs_proxies := rs_proxies st; rs_msa := rs_msa st; rs_sc := rs_sc st; rs_h := rs_h st; rs_st := rs_st st; rs_mg := rs_mg st; rs_cap := rs_cap st; rs_tr := x |}.
Definition up_nonce_ st x := {| rs_block := rs_block st; rs_relay := rs_relay st; rs_nonce := x; rs_bal := rs_bal st; rs_proxies := rs_proxies st; rs_msa := rs_msa st; rs_sc := rs_sc st; rs_h := rs_h st; rs_st := rs_st st; rs_mg := rs_mg st; rs_cap := rs_cap st; rs_tr := rs_tr st |}.
Definition up_bal_ st x := {| rs_block := rs_block st; rs_relay := rs_relay st; rs_nonce := rs_nonce st; rs_bal := x; rs_proxies := rs_proxies st; rs_msa := rs_msa st; rs_sc := rs_sc st; rs_h := rs_h st; rs_st := rs_st st; rs_mg := rs_mg st; rs_cap := rs_cap st; rs_tr := rs_tr st |}.
Definition up_proxies_ st x := {| rs_block := rs_block st; rs_relay := rs_relay st; rs_nonce := rs_nonce st; rs_bal := rs_bal st; rs_proxies := x; rs_msa := rs_msa st; rs_sc := rs_sc st; rs_h := rs_h st; rs_st := rs_st st; rs_mg := rs_mg st; rs_cap := rs_cap st; rs_tr := rs_tr st |}.

(** ** Filters *)

(** The calls declared with [Pays::No]: pallets/msa/src/lib.rs:597, 711, 749, 831,
    pallets/handles/src/lib.rs:418. Wrappers pay. *)
Definition is_pays_no_call (c : RtCall) : bool :=
  match c with
  | RMsa (RevokeByDelegator _) | RMsa (DeletePublicKey _) | RMsa (RevokeByProvider _) | RMsa RetireMsa => true
  | RHandles RetireHandle => true
  | _ => false
  end.

(** runtime/frequency/src/lib.rs:156-160, 186-190: calls open to governance only *)
Definition is_create_call (c : RtCall) : bool :=
  match c with
  | RMsa (CreateProvider _) => true
  | RSchemas (CreateSchema _ _ _) | RSchemas (CreateSchemaV2 _ _ _ _) | RSchemas (CreateSchemaV3 _ _ _ _ _) => true
  | _ => false
  end.

(** runtime/frequency/src/lib.rs:177-199 *)
Definition is_batch_call_allowed (c : RtCall) : bool :=
  match c with
  | RUtility _ _ => false
  | RPay _ | RPayBatch _ => false
  | _ => negb (is_create_call c) && negb (is_pays_no_call c)
  end.

(** runtime/frequency/src/lib.rs:139-175 [BaseCallFilter] *)
Definition base_filter (mainnet : bool) (c : RtCall) : bool :=
  match c with
  | RUtility _ calls => existsb is_batch_call_allowed calls
  | _ => negb (mainnet && is_create_call c)
  end.

(** runtime/frequency/src/lib.rs:207-259 *)
Definition proxy_filter (t : ProxyType) (c : RtCall) : bool :=
  match t with
  | PAny => true
  | PNonTransfer =>
      match c with
      | RCapacity _ | RPay _ | RPayBatch _ | RHandles _ | RMessages _ | RMsa _ | RMultisig1 _ _ | RSchemas _ | RStorage _ => true
      | RTime VClaim | RTime (VClaimFor _) => true
      | RUtility _ _ => true
      | ROther (PCollatorSelection _) | ROther PCouncil | ROther PDemocracy | ROther PMultisig | ROther PPreimage
      | ROther PScheduler | ROther PSession | ROther PTechnicalCommittee | ROther PTreasury => true
      | _ => false
      end
  | PGovernance =>
      match c with
      | ROther PTreasury | ROther PDemocracy | ROther PTechnicalCommittee | ROther PCouncil | RUtility _ _ => true
      | _ => false
      end
  | PStaking => match c with RCapacity (KStake _ _) | ROther (PCollatorSelection true) => true | _ => false end
  | PCancelProxy => match c with ROther (PProxy true) => true | _ => false end
  end.

(** runtime/frequency/src/lib.rs:261-269 *)
Definition is_superset (a b : ProxyType) : bool :=
  if bool_decide (a = b) then true
  else match a, b with
       | PAny, _ => true
       | _, PAny => false
       | PNonTransfer, _ => true
       | _, _ => false
       end.

(** runtime/frequency/src/lib.rs:275-287 [PasskeyCallFilter] *)
Definition passkey_filter (c : RtCall) : bool := match c with RBalances _ => true | _ => false end.

(** ** Fees *)

(** pallets/stateful-storage/src/lib.rs:604-616 *)
Definition sum_add_actions_bytes (l : list ItemAction) : N :=
  fold_left (fun acc a => sat_add u32_max acc (match a with Add d => len d | Delete _ => 0 end)) l 0.

(** runtime/frequency/src/lib.rs:875-898 with capacity_stable_weights.rs:60-330 *)
Definition get_stable_weight (c : RtCall) : option Weight :=
  match c with
  | RMsa (AddPublicKey _ _ _ _) => Some (stable 177629000 18396 0 0 8 7)
  | RMsa (CreateSponsored _ _ p) => Some (stable 123084817 14946 138668 (len (ap_schemas p)) 10 7)
  | RMsa (GrantDelegation _ _ p) => Some (stable 115947313 14946 192710 (len (ap_schemas p)) 8 4)
  | RMessages (AddIpfsMessage _ _ _) => Some (stable 159242000 48664 0 0 3 1)
  | RMessages (AddOnchainMessage _ _ d) => Some (stable 174064230 59148 1527 (len d) 4 1)
  | RStorage (ApplyItemActions _ _ _ l) => Some (stable 104137090 45745 7325 (sum_add_actions_bytes l) 4 1)
  | RStorage (UpsertPage _ _ _ _ d) => Some (stable 32297181 12791 594 (len d) 4 1)
  | RStorage (DeletePage _ _ _ _) => Some (stable 37792000 13950 0 0 4 1)
  | RStorage (ApplyItemActionsWithSignature _ _ p) => Some (stable 158947612 45752 13664 (sum_add_actions_bytes (ip_actions p)) 3 1)
  | RStorage (ApplyItemActionsWithSignatureV2 _ _ p) => Some (stable 158947612 45752 13664 (sum_add_actions_bytes (ip2_actions p)) 3 1)
  | RStorage (UpsertPageWithSignature _ _ p) => Some (stable 87768259 12724 6648 (len (up_data p)) 3 1)
  | RStorage (UpsertPageWithSignatureV2 _ _ p) => Some (stable 87768259 12724 6648 (len (up2_data p)) 3 1)
  | RStorage (DeletePageWithSignature _ _ _) | RStorage (DeletePageWithSignatureV2 _ _ _) => Some (stable 90631000 13883 0 0 3 1)
  | RHandles (ClaimHandle _ _ p) => Some (stable 85480476 12434 107272 (len (hp_base p)) 3 3)
  | RHandles (ChangeHandle _ _ p) => Some (stable 95748064 12434 212118 (len (hp_base p)) 3 4)
  | _ => None
  end.

(** runtime/frequency/src/lib.rs:900-911 *)
Definition get_inner_calls (c : RtCall) : list RtCall :=
  match c with RPay x => [x] | RPayBatch l => l | _ => [c] end.

(** pallets/frequency-tx-payment/src/lib.rs:241-243 [get_capacity_overhead_weight]:
    two reads and a write *)
Definition overhead_weight : Weight := w_parts 150000000 0.
(** The weight of the calls of frequency-tx-payment, lib.rs:189-215 with
    weights.rs:43-61; [inner] are the weights of the wrapped calls (generated
    tables). The last case is the zero of the runtime API. *)
Definition dispatch_weight (inner : RtCall -> Weight) (c : RtCall) : Weight :=
  match c with
  | RPay x => w_add (w_parts 3326000 0) (w_add overhead_weight (inner x))
  | RPayBatch l =>
      w_add (w_add (w_parts 6107676 0) (w_mul (w_parts 3023884 0) (len l)))
            (w_add overhead_weight (fold_left (fun acc x => w_add acc (inner x)) l w_zero))
  | _ => w_zero
  end.
(** runtime/frequency/src/lib.rs:1399-1416: the fee that the RPC reports *)
Definition rpc_fee (inner : RtCall -> Weight) (c : RtCall) (n : N) : N :=
  final_fee (fee_details (map get_stable_weight (get_inner_calls c)) (dispatch_weight inner c) n).

Section rt.
Variable cfg : RtCfg.

Definition balance (st : RtState) (who : N) : N := default 0 (rs_bal st !! who).
Definition nonce (st : RtState) (who : N) : N := default 0 (rs_nonce st !! who).
(** pallet_balances: the largest of the freezes (capacity, time release) *)
Definition frozen (st : RtState) (who : N) : N :=
  N.max (default 0 (cs_freeze (rs_cap st) !! who)) (default 0 (tr_freeze (rs_tr st) !! who)).

(** ** What each pallet sees of the others *)
Definition env_msa (st : RtState) : MsaEnv :=
  {| e_block := rs_block st; e_max_schema := sc_count (rs_sc st);
     e_has_handle := fun m => match hs_name (rs_h st) !! m with Some _ => true | None => false end |}.
Definition env_h (st : RtState) : HEnv := {| he_block := rs_block st; he_msa_of := fun k => ms_keys (rs_msa st) !! k |}.
Definition env_st (st : RtState) : StEnv :=
  {| v_env := env_msa st; v_msa := rs_msa st; v_schema := get_schema_info_by_id (rs_sc st) |}.
Definition env_mg (st : RtState) : MgEnv :=
  {| gv_env := env_msa st; gv_msa := rs_msa st; gv_schema := get_schema_info_by_id (rs_sc st) |}.
(** The token balances as the capacity and time-release pallets see them *)
Definition cap_view (st : RtState) : CapState := k_set_bal (rs_cap st) (rs_bal st).
Definition tr_view (st : RtState) : TrState :=
  {| tr_sched := tr_sched (rs_tr st); tr_freeze := tr_freeze (rs_tr st); tr_bal := rs_bal st; tr_added := tr_added (rs_tr st) |}.

Definition lift {E A B} (f : E -> RtErr) (m : res E A) (k : A -> res RtErr B) : res RtErr B :=
  match m with Ok x => k x | Err e => Err (f e) end.

(** ** Tokens *)

(** pallet_balances: [from] pays [amount], which must not touch what is frozen. An
    account left with less than the existential deposit is removed with its
    nonce, unless it must be kept alive or has something frozen; the dust is
    lost. *)
Definition token_debit (st : RtState) (keep_alive : bool) (from amount : N) : option RtState :=
  if balance st from <? amount then None
  else let rest := balance st from - amount in
       if rest <? frozen st from then None
       else if rest <? r_ed cfg
            then if keep_alive || negb (frozen st from =? 0) then None
                 else Some (up_nonce_ (up_bal_ st (delete from (rs_bal st))) (delete from (rs_nonce st)))
            else Some (up_bal_ st (<[from := rest]> (rs_bal st))).
Definition token_credit (st : RtState) (to amount : N) : option RtState :=
  let b := balance st to + amount in
  if b <? r_ed cfg then None else if u128_max <? b then None else Some (up_bal_ st (<[to := b]> (rs_bal st))).
Definition token_transfer (st : RtState) (keep_alive : bool) (from to amount : N) : res RtErr RtState :=
  if from =? to then match token_debit st keep_alive from amount, token_credit st to amount with
                     | Some _, Some _ => Ok st (* checked, but nothing to do *)
                     | _, _ => Err XToken
                     end
  else match token_debit st keep_alive from amount with
       | None => Err XToken
       | Some st1 => match token_credit st1 to amount with None => Err XToken | Some st2 => Ok st2 end
       end.
(** what [transfer_all] moves: all that is not frozen, and, to keep the account
    alive, not the existential deposit *)
Definition reducible (st : RtState) (who : N) (keep_alive : bool) : N :=
  balance st who - N.max (frozen st who) (if keep_alive || negb (frozen st who =? 0) then r_ed cfg else 0).

Definition bal_dispatch (st : RtState) (who : N) (c : BalCall) : res RtErr RtState :=
  match c with
  | TransferAllowDeath to a => token_transfer st false who to a
  | TransferKeepAlive to a => token_transfer st true who to a
  | TransferAll to keep => token_transfer st keep who to (reducible st who keep)
  end.

(** pallets/capacity/src/lib.rs:312-405; a target is valid if it is a registered
    provider (runtime: TargetValidator = Msa) *)
Definition cap_dispatch (st : RtState) (who : N) (c : CapCall) : res RtErr RtState :=
  match c with
  | KStake t a =>
      lift XCapacity (stake (r_cap cfg) (cap_view st) (is_registered_provider (rs_msa st)) who t a) (fun x => Ok (up_cap_ st x))
  | KUnstake t a => lift XCapacity (unstake (r_cap cfg) (cap_view st) who t a) (fun x => Ok (up_cap_ st x))
  | KWithdraw => lift XCapacity (withdraw_unstaked (cap_view st) who) (fun x => Ok (up_cap_ st x))
  | KSetEpochLength n => Err XBadOrigin
  end.

(** pallets/time-release/src/lib.rs:241-336. The token transfer inside is the one
    above; [update_release_schedules] is for root. *)
Definition time_dispatch (st : RtState) (who : N) (c : TimeCall) : res RtErr RtState :=
  match c with
  | VClaim => lift XTime (TrModel.do_claim (tr_view st) who (rs_relay st)) (fun x => Ok (up_tr_ st x))
  | VClaimFor w => lift XTime (TrModel.do_claim (tr_view st) w (rs_relay st)) (fun x => Ok (up_tr_ st x))
  | VUpdate _ _ => Err XBadOrigin
  | VTransfer to s =>
      let moved := match sc_total s with Some a => token_transfer st false who to a | None => Err XToken end in
      lift XTime (t_call_transfer (r_tr cfg) (tr_view st) (rs_relay st) (is_ok moved) who to s)
        (fun x => match moved with Ok st1 => Ok (up_tr_ st1 x) | Err e => Err e end)
  end.

(** ** Dispatch *)

(** A signed origin: the account, and the filters added to it on the way. *)
Record ROrigin := { o_who : N; o_filter : RtCall -> bool }.
Definition signed (who : N) : ROrigin := {| o_who := who; o_filter := fun _ => true |}.
Definition add_filter (o : ROrigin) (f : RtCall -> bool) : ROrigin := {| o_who := o_who o; o_filter := fun c => o_filter o c && f c |}.

(** pallet_utility: a [batch_all] must not contain another *)
Definition not_batch_all (c : RtCall) : bool := match c with RUtility BatchAll _ => false | _ => true end.
(** pallet_proxy [do_proxy]: the filter on the proxied call. A proxy cannot add
    one with more permissions. *)
Definition proxied (t : ProxyType) (c : RtCall) : bool :=
  match c with
  | RAddProxy _ t' => if is_superset t t' then proxy_filter t c else false
  | _ => proxy_filter t c
  end.
(** pallet_proxy [find_proxy] *)
Definition find_proxy (st : RtState) (real delegate : N) (force : option ProxyType) : option ProxyType :=
  match List.find (fun dt : N * ProxyType => (dt.1 =? delegate) && match force with Some t => bool_decide (dt.2 = t) | None => true end)
          (default [] (rs_proxies st !! real)) with
  | Some dt => Some dt.2
  | None => None
  end.

(** pallet_utility: the calls of a batch in order. At an error [batch] stops and
    keeps what was done, [force_batch] goes on, [batch_all] fails. *)
Definition run_batch (k : BatchKind) (f : RtCall -> RtState -> res RtErr RtState) : list RtCall -> RtState -> res RtErr RtState :=
  fix go (l : list RtCall) (st : RtState) : res RtErr RtState :=
    match l with
    | [] => Ok st
    | c :: l' =>
        match f c st with
        | Ok st' => go l' st'
        | Err e => match k with Batch => Ok st | ForceBatch => go l' st | BatchAll => Err e end
        end
    end.

(** [RuntimeCall::dispatch]: the origin's filter ([BaseCallFilter] and those
    added), then the call. A failing call leaves no trace. *)
Fixpoint rt_dispatch (c : RtCall) (o : ROrigin) (st : RtState) {struct c} : res RtErr RtState :=
  ensure! base_filter (r_mainnet cfg) c && o_filter o c else XFiltered in
  let who := o_who o in
  match c with
  | RMsa c => lift XMsa (msa_dispatch (r_msa cfg) (env_msa st) (rs_msa st) (Signed who) c) (fun x => Ok (up_msa_ st x))
  | RHandles c => lift XHandles (h_dispatch (r_h cfg) (env_h st) (rs_h st) (Some who) c) (fun x => Ok (up_h_ st x))
  | RStorage c => lift XStorage (st_dispatch (r_st cfg) (env_st st) (rs_st st) (Signed who) c) (fun x => Ok (up_st_ st x))
  | RMessages c => lift XMessages (mg_dispatch (r_mg cfg) (env_mg st) (rs_mg st) (Signed who) c) (fun x => Ok (up_mg_ st x))
  | RSchemas c => lift XSchemas (sc_dispatch (r_sc cfg) (rs_sc st) (ScSigned who) (r_council cfg st who) c) (fun x => Ok (up_sc_ st x))
  | RCapacity c => cap_dispatch st who c
  | RTime c => time_dispatch st who c
  | RBalances c => bal_dispatch st who c
  | RUtility k calls =>
      let o' := match k with BatchAll => add_filter o not_batch_all | _ => o end in
      run_batch k (fun c => rt_dispatch c o') calls st
  | RPay c => (* pallets/frequency-tx-payment/src/lib.rs:196-203 *)
      rt_dispatch c o st
  | RPayBatch calls => (* lib.rs:218-229, runtime/frequency/src/lib.rs:130-134 *)
      ensure! len calls <=? r_max_batch cfg else XBatchTooLong in
      run_batch BatchAll (fun c => rt_dispatch c (add_filter o not_batch_all)) calls st
  | RProxy real force c =>
      match find_proxy st real who force with
      | None => Err XNotProxy
      | Some t => (* the result of the call is only reported *)
          match rt_dispatch c (add_filter (signed real) (proxied t)) st with Ok st' => Ok st' | Err _ => Ok st end
      end
  | RAddProxy d t => Ok (up_proxies_ st (<[who := default [] (rs_proxies st !! who) ++ [(d, t)]]> (rs_proxies st)))
  | RMultisig1 others c => rt_dispatch c (signed (r_multi cfg who others)) st
  | ROther _ => Ok st
  end.

(** ** Transactions *)
Record Tx := { tx_who : N; tx_nonce : N; tx_call : RtCall; tx_len : N; tx_tip : N }.

(** runtime/common/src/extensions/check_nonce.rs:80-117. The nonce is a u32 and
    [+=] wraps. *)
Definition exists_account (st : RtState) (who : N) : bool := (0 <? balance st who) || (0 <? frozen st who).
Definition check_nonce (st : RtState) (who n : N) (pays : bool) : res TxErr RtState :=
  ensure! nonce st who <=? n else IStale in
  ensure! n <=? nonce st who else IFuture in
  if pays || exists_account st who then Ok (up_nonce_ st (<[who := wrap_add u32_max n 1]> (rs_nonce st))) else Ok st.

(** pallets/frequency-tx-payment/src/lib.rs:389-408 with payment.rs:34-59 *)
Definition withdraw_capacity_fee (st : RtState) (key : N) (calls : list RtCall) (n : N) : res TxErr RtState :=
  match capacity_charge (map get_stable_weight calls) n with
  | None => Err INotEligible
  | Some fee =>
      ensure! r_ed cfg <=? balance st key else IPayment in
      match ms_keys (rs_msa st) !! key with
      | None => Err IInvalidMsaKey
      | Some m => match cap_spend (rs_cap st) m fee with Ok x => Ok (up_cap_ st x) | Err _ => Err IPayment end
      end
  end.
(** lib.rs:411-433 *)
Definition withdraw_token_fee (st : RtState) (who : N) (c : RtCall) (n tip : N) : res TxErr RtState :=
  let fee := r_token_fee cfg c n tip in
  if fee =? 0 then Ok st
  else match token_debit st true who fee with Some x => Ok x | None => Err IPayment end.
(** lib.rs:372-386, 493-504 *)
Definition withdraw_fee (st : RtState) (who : N) (c : RtCall) (n tip : N) : res TxErr RtState :=
  match c with
  | RPay x => withdraw_capacity_fee st who [x] n
  | RPayBatch l => withdraw_capacity_fee st who l n
  | _ => withdraw_token_fee st who c n tip
  end.

(** [CheckFreeExtrinsicUse] and [HandlesSignedExtension] look at the
    transaction's own call. *)
Definition free_use (st : RtState) (who : N) (c : RtCall) : res TxErr unit :=
  match c with
  | RMsa c => match msa_validate (env_msa st) (rs_msa st) (Signed who) c with Ok _ => Ok tt | Err e => Err (IMsa e) end
  | RHandles c => ensure! extension_ok (env_h st) (rs_h st) who c else IHandles in Ok tt
  | _ => Ok tt
  end.

(** A signed transaction: runtime/frequency/src/lib.rs:290-301. [Err] means that
    it is not part of any block; [Ok (st, r)] that it was included with result
    [r]. *)
Definition run_call (c : RtCall) (o : ROrigin) (st : RtState) : RtState * option RtErr :=
  match rt_dispatch c o st with Ok st' => (st', None) | Err e => (st, Some e) end.
Definition tx_apply (st : RtState) (t : Tx) : res TxErr (RtState * option RtErr) :=
  let! st1 := check_nonce st (tx_who t) (tx_nonce t) (negb (is_pays_no_call (tx_call t))) in
  let! st2 := withdraw_fee st1 (tx_who t) (tx_call t) (tx_len t) (tx_tip t) in
  let! _ := free_use st2 (tx_who t) (tx_call t) in
  Ok (run_call (tx_call t) (signed (tx_who t)) st2).

(** ** Passkeys: pallets/passkey/src/types.rs:31-66. Keys and signatures are
    bytes; [pk_signature] stands for the signature with its metadata. *)
Record PasskeyPayload := {
  pk_public_key : list N;
  pk_signature : list N;
  pk_account : N;
  pk_nonce : N;
  pk_proof : N;
  pk_call : RtCall
}.
(** pallets/passkey/src/lib.rs:171-182 [pre_dispatch] (189-246: filter, account
    signature), 127-145 [proxy], 274-330 (fee; the length is that of the encoded
    account id, 32). Not in the mainnet runtime (runtime/frequency/src/lib.rs:927). *)
Definition passkey_apply (st : RtState) (p : PasskeyPayload) : res TxErr (RtState * option RtErr) :=
  ensure! negb (r_mainnet cfg) else ICall in
  ensure! passkey_filter (pk_call p) else ICall in
  ensure! r_verify cfg (pk_proof p) (pk_account p) (wrap_binary_data (pk_public_key p)) else IBadSigner in
  let! st1 := check_nonce st (pk_account p) (pk_nonce p) (negb (is_pays_no_call (pk_call p))) in
  let! st2 := withdraw_token_fee st1 (pk_account p) (pk_call p) 32 0 in
  Ok (run_call (pk_call p) (signed (pk_account p)) st2).

(** ** Histories *)
Inductive GovCall :=
| GProvider (key : N) (name : list N)
| GSchemas (root : bool) (c : ScCall)
| GEpochLength (n : N)
| GSchedules (who : N) (l : list Sched).
Definition gov_apply (st : RtState) (c : GovCall) : res RtErr RtState :=
  match c with
  | GProvider k n =>
      lift XMsa (msa_dispatch (r_msa cfg) (env_msa st) (rs_msa st) Gov (CreateProviderViaGovernance k n)) (fun x => Ok (up_msa_ st x))
  | GSchemas root c => lift XSchemas (sc_dispatch (r_sc cfg) (rs_sc st) (if root then ScRoot else ScCouncil) false c) (fun x => Ok (up_sc_ st x))
  | GEpochLength n => lift XCapacity (set_epoch_length (r_cap cfg) (cap_view st) true n) (fun x => Ok (up_cap_ st x))
  | GSchedules who l => lift XTime (do_update_release_schedules (r_tr cfg) (tr_view st) who l) (fun x => Ok (up_tr_ st x))
  end.

(** The beginning of a block: [on_initialize] of the messages and the capacity
    pallet. *)
Definition next_block (st : RtState) (relay : N) : RtState :=
  {| rs_block := rs_block st + 1; rs_relay := relay; rs_nonce := rs_nonce st; rs_bal := rs_bal st; rs_proxies := rs_proxies st;
     rs_msa := rs_msa st; rs_sc := rs_sc st; rs_h := rs_h st; rs_st := rs_st st; rs_mg := mg_next_block (rs_mg st);
     rs_cap := on_initialize (rs_cap st) (rs_block st + 1); rs_tr := rs_tr st |}.

Inductive RtStep := SBlock (relay : N) | STx (t : Tx) | SPasskey (p : PasskeyPayload) | SGov (c : GovCall).
Definition rt_step (st : RtState) (x : RtStep) : RtState :=
  match x with
  | SBlock relay => next_block st relay
  | STx t => match tx_apply st t with Ok (st', _) => st' | Err _ => st end
  | SPasskey p => match passkey_apply st p with Ok (st', _) => st' | Err _ => st end
  | SGov c => match gov_apply st c with Ok st' => st' | Err _ => st end
  end.
Definition rt_run (st : RtState) (h : list RtStep) : RtState := fold_left rt_step h st.
End rt.

Definition rt_genesis (balances : gmap N N) (max_model : N) : RtState :=
  {| rs_block := 0; rs_relay := 0; rs_nonce := ∅; rs_bal := balances; rs_proxies := ∅; rs_msa := msa_genesis;
     rs_sc := sc_genesis max_model; rs_h := h_genesis; rs_st := st_genesis; rs_mg := mg_genesis; rs_cap := cap_genesis;
     rs_tr := tr_initial balances |}.
(** With vesting schedules from the chain's genesis *)
Definition rt_start (balances : gmap N N) (max_model : N) (vest : TrState) : RtState := up_tr_ (rt_genesis balances max_model) vest.
