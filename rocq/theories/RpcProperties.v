(** C130-C132: what the answers of the RPC methods mean for the calls that a
    client then sends. The state is that of the deployed chain (DeployedProperties.v)
    after any history, and the client's call arrives in the next block. *)
From Verif Require Import Prelude Scale Utf8 CommonTypes SigModel MsaModel CapModel TrModel HModel ScModel StModel MgModel FeeModel RtModel.
From Verif Require Import StSpec HSpec RtSpec RtMoreSpec StPayloadProofs DeployedProperties RpcModel RpcSpec RpcProofs.
From Verif Require StHashProofs HProperties.

(** ** C130. Delegations *)
(** msa_checkDelegations answers for each id, in order; in any state. *)
Theorem C130_checks :
  forall s ds p b schema,
  length (rpc_check_delegations s ds p b schema) = length ds /\
  forall i d, ds !! i = Some d -> exists ok, rpc_check_delegations s ds p b schema !! i = Some (d, ok)
    /\ (ok = true <-> b <= rs_block s /\ grant_at s d p b schema).
Proof. exact check_lemma. Qed.
Print Assumptions C130_checks.

(** msa_getAllGrantedDelegationsByMsaId lists every provider once, with the schemas
    and their ends. *)
Theorem C130_listing :
  forall s d,
  NoDup (map fst (rpc_all_granted s d)) /\
  (forall p, (exists gs, (p, gs) ∈ rpc_all_granted s d) <-> exists dg, ms_deleg (rs_msa s) !! (d, p) = Some dg) /\
  forall p gs, (p, gs) ∈ rpc_all_granted s d ->
    NoDup (map fst gs) /\ forall x b, grant_at s d p b (Some x) <-> exists e, (x, e) ∈ gs /\ not_ended e b.
Proof. exact all_granted_lemma. Qed.
Print Assumptions C130_listing.

(** msa_grantedSchemaIdsByMsaId gives one entry of that list; nothing if it has no
    schemas. *)
Theorem C130_one_provider :
  forall s d p l, rpc_granted_schemas s d p = Some l <-> (p, l) ∈ rpc_all_granted s d /\ l <> [].
Proof. exact granted_lemma. Qed.
Print Assumptions C130_one_provider.

(** What a provider may post in the next block is what is listed without end. *)
Theorem C130_listed_is_usable :
  forall o s h r k p d x payload, reached o s h -> ms_keys (rs_msa s) !! k = Some p -> schema_at s x OnChain -> len payload <= 3072 ->
  is_ok (rt_dispatch (deployed o) (RMessages (AddOnchainMessage (Some d) x payload)) (signed k) (next_block s r)) = true <->
  exists gs, (p, gs) ∈ rpc_all_granted s d /\ (x, 0) ∈ gs.
Proof.
  intros o s h r k p d x payload [(b & mm & items & v & _ & ->) Hr] Hk Hx Hl.
  exact (post_lemma (deployed o) b mm v h r k p d x payload ltac:(vm_compute; discriminate) Hr Hk Hx Hl).
Qed.
Print Assumptions C130_listed_is_usable.

(** ** C131. Names *)
Lemma handles_config o : rng_ok (h_rng (r_h (deployed o))) /\ range_ok (r_h (deployed o)).
Proof. split; [exact (proj1 HProperties.C50_runtime_generator)|exact (proj2 HProperties.C50_runtime_generator _ _)]. Qed.

(** The name that is reported for an MSA can be typed into the lookup, which
    finds the MSA unless the name has no canonical form (C51). *)
Theorem C131_reported_name_is_found :
  forall o s h m a, reached o s h -> rpc_handle_for_msa (deployed o) s m = Some a ->
  exists text, typed_as text (full_name_of a)
    /\ (exists answer, rpc_msa_for_handle (deployed o) s text = Ok answer)
    /\ (hr_canonical a <> [] -> rpc_msa_for_handle (deployed o) s text = Ok (Some m)).
Proof.
  intros o s h m a [(b & mm & items & v & _ & ->) Hr]. destruct (handles_config o) as [Hg Ho].
  exact (name_accepted (deployed o) b mm v h Hg Ho Hr m a).
Qed.
Print Assumptions C131_reported_name_is_found.

Theorem C131_found_msa_has_the_name :
  forall o s h text m, reached o s h -> rpc_msa_for_handle (deployed o) s text = Ok (Some m) ->
  exists t x a, parts (utf8 text) = Some (t, x) /\ rpc_handle_for_msa (deployed o) s m = Some a
    /\ hr_canonical a = budget (r_h (deployed o)) t /\ hr_suffix a = x.
Proof.
  intros o s h text m [(b & mm & items & v & _ & ->) Hr]. destruct (handles_config o) as [Hg Ho].
  exact (lookup_is (deployed o) b mm v h Hg Ho Hr text m).
Qed.
Print Assumptions C131_found_msa_has_the_name.

(** An accepted claim or change in the next block gets the suffix that
    handles_getNextSuffixes shows. *)
Theorem C131_next_suffix :
  forall o s h r who c k text s', reached o s h -> asks_for c k (utf8 text) ->
  rt_dispatch (deployed o) (RHandles c) (signed who) (next_block s r) = Ok s' ->
  exists x m a, rpc_next_suffixes (deployed o) s text None = Ok (utf8 text, [x]) /\ ms_keys (rs_msa s) !! k = Some m
    /\ rpc_handle_for_msa (deployed o) s' m = Some a /\ hr_base a = utf8 text /\ hr_suffix a = x.
Proof.
  intros o s h r who c k text s' [(b & mm & items & v & _ & ->) Hr]. destruct (handles_config o) as [Hg Ho].
  exact (next_suffix (deployed o) b mm v h Hg Ho Hr r who c k text s').
Qed.
Print Assumptions C131_next_suffix.

(** The list for a base that fits: as many as asked for, at most 100, at most what
    is left of the 90; all within 10 to 99 and none of them ever given out for the
    same canonical form. *)
Theorem C131_suffix_list :
  forall o s h text count, reached o s h -> Forall scalar text -> len (utf8 text) <= 32 ->
  exists l, rpc_next_suffixes (deployed o) s text count = Ok (utf8 text, l) /\ NoDup l
    /\ len l = N.min (N.min (default 1 count) 100)
                     (90 - N.of_nat (used (r_h (deployed o)) (budget (r_h (deployed o)) text) (claimed (rs_h s))))
    /\ forall x, x ∈ l -> 10 <= x <= 99
        /\ forall m d t x', (m, d) ∈ claimed (rs_h s) -> parts d = Some (t, x') ->
           form (r_h (deployed o)) t = form (r_h (deployed o)) text -> x' <> x.
Proof.
  intros o s h text count [(b & mm & items & v & _ & ->) Hr] Ht Hl. destruct (handles_config o) as [Hg Ho].
  exact (next_list (deployed o) b mm v h Hg Ho Hr text count (conj Ht eq_refl) Hl).
Qed.
Print Assumptions C131_suffix_list.

(** What handles_validateHandle rejects cannot be claimed (the converse fails, C99). *)
Theorem C131_invalid_is_refused :
  forall o s h r who c k text, reached o s h -> asks_for c k (utf8 text) -> rpc_validate_handle (deployed o) text = false ->
  is_ok (rt_dispatch (deployed o) (RHandles c) (signed who) (next_block s r)) = false.
Proof.
  intros o s h r who c k text [(b & mm & items & v & _ & ->) Hr]. destruct (handles_config o) as [Hg Ho].
  exact (invalid_refused (deployed o) b mm v h Hg Ho Hr r who c k text).
Qed.
Print Assumptions C131_invalid_is_refused.

(** The errors of the methods are about the length of the text alone. *)
Theorem C131_errors :
  forall o s text count,
  (rpc_msa_for_handle (deployed o) s text = Err InvalidHandle <-> 38 < len (utf8 text))
  /\ (rpc_next_suffixes (deployed o) s text count = Err InvalidHandle <-> 32 < len (utf8 text)).
Proof.
  intros o s text count. unfold rpc_msa_for_handle, rpc_next_suffixes.
  change DISPLAY_BYTES_MAX with 38. change HANDLE_BYTES_MAX with 32.
  split; destruct (N.leb_spec (len (utf8 text)) 38), (N.leb_spec (len (utf8 text)) 32); split; try discriminate; try reflexivity; lia.
Qed.
Print Assumptions C131_errors.

(** ** C132. Storage and schemas *)
Lemma storage_config o : blake_ok (d_blake o) ->
  sizes_ok (r_st (deployed o)) /\ hashes_ok (r_st (deployed o)) /\ key_hash_ok (r_st (deployed o)).
Proof. intros Hb. split; [apply runtime_sizes|]. split; [by apply runtime_hashes|apply StHashProofs.runtime_key_hash]. Qed.

(** The queries fail exactly for schemas of another kind. *)
Theorem C132_answered :
  forall o s h m x, reached o s h -> blake_ok (d_blake o) -> m <= u64_max -> x <= u16_max ->
  ((exists l, rpc_pages (deployed o) s m x = Ok l) <-> schema_at s x Paginated)
  /\ ((exists a, rpc_items (deployed o) s m x = Ok a) <-> schema_at s x Itemized).
Proof.
  intros o s h m x [(b & mm & items & v & _ & ->) Hr] Hb Hm Hx. destruct (storage_config o Hb) as (Hz & Hh & _). split.
  - exact (pages_ok_iff (deployed o) b mm v h m x).
  - exact (items_ok_iff (deployed o) b mm v h Hz Hh Hr m x Hm Hx).
Qed.
Print Assumptions C132_answered.

(** A write to a page by a key of its owner is accepted in the next block exactly
    if it names the hash that is listed for the page, or 0 if the page is not
    listed, and the page and its data are within the limits. *)
Theorem C132_page_write :
  forall o s h m x l r k page hash data, reached o s h -> blake_ok (d_blake o) ->
  rpc_pages (deployed o) s m x = Ok l -> ms_keys (rs_msa s) !! k = Some m ->
  x <= u16_max -> page <= u16_max -> hash <= u32_max -> Forall (fun y => y <= u8_max) data ->
  is_ok (rt_dispatch (deployed o) (RStorage (UpsertPage m x page hash data)) (signed k) (next_block s r)) = true <->
  page <= 32 /\ len data <= 1024 /\ (listed l page hash \/ hash = 0 /\ forall h', ~ listed l page h').
Proof.
  intros o s h m x l r k page hash data [(b & mm & items & v & _ & ->) Hr] Hb. destruct (storage_config o Hb) as (Hz & Hh & Hk).
  exact (upsert_lemma (deployed o) b mm v h Hz Hh Hk Hr m x l r k page hash data).
Qed.
Print Assumptions C132_page_write.

(** Afterwards the page is listed with the new data, and the other pages as
    before. *)
Theorem C132_page_written :
  forall o s h m x l r k page hash data s', reached o s h -> blake_ok (d_blake o) ->
  rpc_pages (deployed o) s m x = Ok l -> x <= u16_max -> page <= u16_max -> m <= u64_max ->
  rt_dispatch (deployed o) (RStorage (UpsertPage m x page hash data)) (signed k) (next_block s r) = Ok s' ->
  exists l', rpc_pages (deployed o) s' m x = Ok l' /\
    (exists hash' n, (page, hash', n, data) ∈ l') /\
    forall page' e n d, page' <> page -> (page', e, n, d) ∈ l' <-> (page', e, n, d) ∈ l.
Proof.
  intros o s h m x l r k page hash data s' [(b & mm & items & v & _ & ->) Hr] Hb. destruct (storage_config o Hb) as (Hz & Hh & Hk).
  exact (upsert_effect (deployed o) b mm v h Hz Hh Hk Hr m x l r k page hash data s').
Qed.
Print Assumptions C132_page_written.

(** A page is deleted if its listed hash is named, unless the schema is
    append-only; deleting a page that is not listed is accepted with any hash. *)
Theorem C132_page_delete :
  forall o s h m x l r k page hash, reached o s h -> blake_ok (d_blake o) ->
  rpc_pages (deployed o) s m x = Ok l -> ms_keys (rs_msa s) !! k = Some m ->
  x <= u16_max -> page <= u16_max -> hash <= u32_max ->
  is_ok (rt_dispatch (deployed o) (RStorage (DeletePage m x page hash)) (signed k) (next_block s r)) = true <->
  page <= 32 /\ (listed l page hash \/ forall h', ~ listed l page h')
  /\ forall i, get_schema_info_by_id (rs_sc s) x = Some i -> set_append_only (si_settings i) = false.
Proof.
  intros o s h m x l r k page hash [(b & mm & items & v & _ & ->) Hr] Hb. destruct (storage_config o Hb) as (Hz & Hh & Hk).
  exact (delete_lemma (deployed o) b mm v h Hz Hh Hk Hr m x l r k page hash).
Qed.
Print Assumptions C132_page_delete.

(** An item is appended if the hash in the answer for the list is named and the
    list, of two bytes and the data for each item, does not grow beyond the limit.
    Then the answer has one item more, at the end. *)
Theorem C132_item_append :
  forall o s h m x h0 n l r k hash item, reached o s h -> blake_ok (d_blake o) ->
  rpc_items (deployed o) s m x = Ok (h0, n, l) -> ms_keys (rs_msa s) !! k = Some m ->
  x <= u16_max -> hash <= u32_max -> Forall (fun y => y <= u8_max) item ->
  is_ok (rt_dispatch (deployed o) (RStorage (ApplyItemActions m x hash [Add item])) (signed k) (next_block s r)) = true <->
  hash = h0 /\ len item <= 1024 /\ len (page_bytes (map snd l)) + 2 + len item <= 10260.
Proof.
  intros o s h m x h0 n l r k hash item [(b & mm & items & v & _ & ->) Hr] Hb H Hk. destruct (storage_config o Hb) as (Hz & Hh & _).
  exact (append_lemma (deployed o) b mm v h Hz Hh Hr m x h0 n l r k hash item H Hk ltac:(vm_compute; discriminate) ltac:(vm_compute; discriminate)).
Qed.
Print Assumptions C132_item_append.

Theorem C132_item_appended :
  forall o s h m x h0 n l r k hash item s', reached o s h -> blake_ok (d_blake o) ->
  rpc_items (deployed o) s m x = Ok (h0, n, l) -> m <= u64_max -> x <= u16_max ->
  rt_dispatch (deployed o) (RStorage (ApplyItemActions m x hash [Add item])) (signed k) (next_block s r) = Ok s' ->
  exists h' n', rpc_items (deployed o) s' m x = Ok (h', n', l ++ [(len l, item)]).
Proof.
  intros o s h m x h0 n l r k hash item s' [(b & mm & items & v & _ & ->) Hr] Hb. destruct (storage_config o Hb) as (Hz & Hh & _).
  exact (append_effect (deployed o) b mm v h Hz Hh Hr m x h0 n l r k hash item s').
Qed.
Print Assumptions C132_item_appended.

(** Every version of a schema name that is listed can be fetched. *)
Theorem C132_versions_can_be_fetched :
  forall o s h text l w, reached o s h -> rpc_schema_versions s text = Some l -> w ∈ l -> is_Some (rpc_schema s (vr_id w)).
Proof.
  intros o s h text l w [(b & mm & items & v & _ & ->) Hr]. exact (versions_registered (deployed o) b mm v h text l w Hr).
Qed.
Print Assumptions C132_versions_can_be_fetched.

(** ** The state of C129's example: MSA 2 delegates to MSA 1, has the name foo.86
    and a page under schema 2. *)
Definition ok_in (s : RtState) (who : N) (c : RtCall) : bool := is_ok (rt_dispatch (deployed open_ex) c (signed who) (next_block s 6)).
Definition grants_ex (s : RtState) :=
  (rpc_all_granted s 2, rpc_granted_schemas s 2 1, rpc_check_delegations s [2; 1; 2] 1 1 (Some 1), rpc_check_delegations s [2] 1 2 (Some 1),
   ok_in s 1 (RMessages (AddOnchainMessage (Some 2) 1 [9]))).
Example C130_case :
  grants_ex state_ex = ([(1, [(1, 0)])], Some [(1, 0)], [(2, true); (1, false); (2, true)], [(2, false)], true).
Proof. vm_compute. reflexivity. Qed.
Definition names_ex (s : RtState) :=
  (rpc_next_suffixes (deployed open_ex) s HProperties.foo None, rpc_msa_for_handle (deployed open_ex) s (HProperties.foo ++ [46; 56; 54]),
   rpc_validate_handle (deployed open_ex) HProperties.foo, rpc_validate_handle (deployed open_ex) [64; 64; 64],
   match rt_dispatch (deployed open_ex) (RHandles (ChangeHandle 5 1005 {| hp_base := HProperties.foo; hp_exp := 60 |})) (signed 1) (next_block s 6) with
   | Ok s' => option_map hr_suffix (rpc_handle_for_msa (deployed open_ex) s' 2)
   | Err _ => None
   end).
Example C131_case : names_ex state_ex = (Ok (HProperties.foo, [23]), Ok (Some 2), true, false, Some 23).
Proof. vm_compute. reflexivity. Qed.
Definition pages_ex (s : RtState) :=
  (rpc_pages (deployed open_ex) s 2 2, ok_in s 5 (RStorage (UpsertPage 2 2 0 2845400896 [9])), ok_in s 5 (RStorage (UpsertPage 2 2 0 0 [9])),
   ok_in s 5 (RStorage (UpsertPage 2 2 1 0 [9])), rpc_items (deployed open_ex) s 2 2).
Example C132_case :
  pages_ex state_ex = (Ok [(0, 2845400896, 1, [8])], true, false, true, Err (RuntimeError SSchemaPayloadLocationMismatch)).
Proof. vm_compute. reflexivity. Qed.
(** A schema for items, under the name abc.d, and one item of MSA 1. *)
Definition history_items : list RtStep :=
  [ SBlock 5; tx_ex 5 0 (RMsa Create);
    SGov (GSchemas true (CreateSchemaViaGovernanceV2 5 model_ex AvroBinary Itemized [] (Some [97; 98; 99; 46; 100])));
    tx_ex 5 1 (RStorage (ApplyItemActions 1 1 0 [Add [7; 7]])) ].
Definition state_items : RtState := rt_run (deployed open_ex) (rt_start bal_ex 65500 (tr_initial bal_ex)) history_items.
Example C132_items_reached : reached open_ex state_items history_items.
Proof. split; [|vm_compute; repeat split; discriminate]. exists bal_ex, 65500, [], (tr_initial bal_ex). split; reflexivity. Qed.
Definition items_ex (s : RtState) :=
  match rpc_items (deployed open_ex) s 1 1 with
  | Ok (h0, n, l) =>
      Some (n, l, ok_in s 5 (RStorage (ApplyItemActions 1 1 h0 [Add [9]])), ok_in s 5 (RStorage (ApplyItemActions 1 1 0 [Add [9]])),
            rpc_schema_versions s [97; 98; 99], match rpc_schema s 1 with Some _ => true | None => false end)
  | Err _ => None
  end.
Example C132_items_case :
  items_ex state_items = Some (1, [(0, [7; 7])], true, false, Some [ {| vr_name := [97; 98; 99; 46; 100]; vr_id := 1; vr_version := 1 |} ], true).
Proof. vm_compute. reflexivity. Qed.
