(** Property C146: owners can erase what is stored under their MSA. *)
From Verif Require Import Prelude Scale CommonTypes SigModel MsaModel CapModel TrModel StModel HModel ScModel MgModel FeeModel RtModel.
From Verif Require Import MsaSpec StSpec RtSpec RtMoreSpec RtProperties StPayloadProofs DeployedProofs DeployedProperties RpcProperties ErasureSpec ErasureProofs.
From Verif Require XxHash XxProofs.

(** ** C146. In every reachable state of the deployed runtime, whoever holds a key of an MSA
    can make storage calls that are all accepted and after which nothing is stored under the
    MSA, but for schemas that are append-only, whose data stays. What is stored under
    other MSAs, and all the rest of the state, is as before. *)
Theorem C146_owner_can_erase :
  forall d s h k m, reached d s h -> blake_ok (d_blake d) -> controls (rs_msa s) k m ->
  exists cs st', all_accepted (deployed d) k cs s = Some (up_st_ s st')
    /\ (forall l, loc_ok l -> loc_msa l = m -> ~ append_only s (loc_schema l) -> read (r_st (deployed d)) st' l = Ok None)
    /\ (forall l, loc_ok l -> loc_msa l <> m \/ append_only s (loc_schema l) ->
          read (r_st (deployed d)) st' l = read (r_st (deployed d)) (rs_st s) l).
Proof.
  intros d s h k m [(b & mm & items & v & _ & ->) Hr] Hb Hc. destruct (C129_configuration d Hb) as (Hz & Hh & _ & _ & Hg & _).
  refine (erase_lemma (deployed d) Hz Hh Hg _ _ b mm v h k m Hr Hc); [vm_compute; discriminate|].
  intros x. cbn. unfold XxHash.xxh64.
  match goal with |- context [let (_, _) := ?e in _] => destruct e as [a r] end.
  enough (XxHash.xx_avalanche (XxHash.xx_eights (S (length x)) (XxHash.add64 a (len x)) r) < XxProofs.W) as H by (unfold XxProofs.W, u64_max in *; lia).
  unfold XxHash.xx_avalanche. cbn zeta. apply XxProofs.lxor_lt; [|apply XxProofs.shiftr_lt]; apply XxProofs.mul64_lt.
Qed.
Print Assumptions C146_owner_can_erase.

(** For whatever parameters with which pages fit and hashes do not collide. *)
Theorem C146_any_parameters :
  forall cfg b mm v h k m, sizes_ok (r_st cfg) -> hashes_ok (r_st cfg) -> g_max (r_mg cfg) <= u32_max ->
  1 <= f_max_actions (r_st cfg) -> (forall d, f_page (r_st cfg) d <= u64_max) -> relays_from 0 h ->
  let s := rt_run cfg (rt_start b mm v) h in controls (rs_msa s) k m ->
  exists cs st', all_accepted cfg k cs s = Some (up_st_ s st')
    /\ (forall l, loc_ok l -> loc_msa l = m -> ~ append_only s (loc_schema l) -> read (r_st cfg) st' l = Ok None)
    /\ (forall l, loc_ok l -> loc_msa l <> m \/ append_only s (loc_schema l) -> read (r_st cfg) st' l = read (r_st cfg) (rs_st s) l).
Proof. intros cfg b mm v h k m H1 H2 H3 H4 H5 H6. exact (erase_lemma cfg H1 H2 H3 H4 H5 b mm v h k m H6). Qed.
Print Assumptions C146_any_parameters.

(** MSA 1 has an item of two bytes under schema 1, and one, which stays, under the append-only schema 2. *)
Definition erase_h : list RtStep :=
  history_items ++
  [ SGov (GSchemas true (CreateSchemaViaGovernance 5 model_ex AvroBinary Itemized [AppendOnly]));
    tx_ex 5 2 (RStorage (ApplyItemActions 1 2 0 [Add [8]])) ].
Definition erase_st : RtState := rt_run (deployed open_ex) (rt_start bal_ex 65500 (tr_initial bal_ex)) erase_h.
Example C146_instance : reached open_ex erase_st erase_h /\ blake_ok (d_blake open_ex) /\ controls (rs_msa erase_st) 5 1.
Proof.
  split; [split; [|vm_compute; repeat split; discriminate]; exists bal_ex, 65500, [], (tr_initial bal_ex); split; reflexivity|].
  split; [exact (proj1 C129_reached)|]. vm_compute. reflexivity.
Qed.
Lemma erase_stored :
  let r l := match read (r_st (deployed open_ex)) (rs_st erase_st) l with Ok (Some p) => Some (pg_data p) | _ => None end in
  r (ItemLoc 1 1) = Some [2; 0; 7; 7] /\ r (ItemLoc 1 2) = Some [1; 0; 8].
Proof. vm_compute. split; reflexivity. Qed.
Lemma erase_append_only : append_only erase_st 2 /\ ~ append_only erase_st 1.
Proof.
  split.
  - eexists. split; vm_compute; reflexivity.
  - intros (i & Hi & Ha). vm_compute in Hi. injection Hi as <-. vm_compute in Ha. discriminate.
Qed.
