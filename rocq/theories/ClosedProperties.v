(** Property C145: what a retired MSA leaves stays as it is. *)
From Verif Require Import Prelude CommonTypes SigModel MsaModel CapModel TrModel StModel HModel ScModel MgModel FeeModel RtModel.
From Verif Require Import MsaSpec StSpec RtSpec RtMoreSpec ClosedSpec ClosedProofs RtProperties ConsentProperties.
From Verif Require StProperties.

(** ** C145. What is true: once an MSA that existed has no key, no handle and no delegation
    in force, this stays so for ever, whatever happens, and nothing is ever stored, removed
    or posted in its name again. *)
Theorem C145_closed_for_ever_partial :
  forall cfg b mm v h1 h2 m, sizes_ok (r_st cfg) -> hashes_ok (r_st cfg) -> g_max (r_mg cfg) <= u32_max ->
  relays_from 0 (h1 ++ h2) ->
  let s := rt_run cfg (rt_start b mm v) h1 in
  let s' := rt_run cfg (rt_start b mm v) (h1 ++ h2) in
  closed s m -> closed s' m /\ nothing_new cfg s s' m.
Proof. intros cfg b mm v h1 h2 m H1 H2 H3. by apply closed_lemma. Qed.
Print Assumptions C145_closed_for_ever_partial.

(** And this is the case at once when an MSA loses its last key by a call to retire that is
    the transaction's own call. *)
Theorem C145_retiring_closes_partial :
  forall cfg b mm v h t m, g_max (r_mg cfg) <= u32_max -> relays_from 0 h ->
  let s := rt_run cfg (rt_start b mm v) h in
  let s' := rt_step cfg s (STx t) in
  tx_call t = RMsa RetireMsa -> controls (rs_msa s) (tx_who t) m -> (forall k, ~ controls (rs_msa s') k m) ->
  closed s' m.
Proof. intros cfg b mm v h t m Hm Hr s s' H1 H2 H3. by apply (retire_closes cfg Hm b mm v h t m). Qed.
Print Assumptions C145_retiring_closes_partial.

(** Key 5 of MSA 3 revokes its delegation, and retires in the next block. Provider 1 can no
    longer write for it. *)
Definition leaving_h : list RtStep := granted_h ++ [ used_x; send 5 1 (RMsa (RevokeByDelegator 1)); SBlock 6 ].
Definition retiring : Tx := tx_ 5 2 (RMsa RetireMsa).
Definition write3 (n : N) : RtStep := send 1 n (RStorage (UpsertPage 3 2 1 0 [9])).
Lemma leaving_run :
  let s := rt_run demo demo_start leaving_h in
  map_to_list (ms_keys (rs_msa s)) = [(1, 1); (7, 2); (5, 3)]
  /\ map_to_list (ms_keys (rs_msa (rt_step demo s (STx retiring)))) = [(1, 1); (7, 2)]
  /\ read (r_st demo) (rs_st (rt_step demo (rt_step demo s (STx retiring)) (write3 7))) (PageLoc 3 2 1)
     = read (r_st demo) (rs_st demo_start) (PageLoc 3 2 1).
Proof. vm_compute. repeat split; reflexivity. Qed.
Lemma leaving_keys : bool_decide (ms_keys (rs_msa (rt_step demo (rt_run demo demo_start leaving_h) (STx retiring))) = list_to_map [(1, 1); (7, 2)]) = true.
Proof. vm_compute. reflexivity. Qed.
Lemma no_third (keys : gmap N N) : bool_decide (keys = list_to_map [(1, 1); (7, 2)]) = true -> forall k, keys !! k <> Some 3.
Proof.
  intros ->%bool_decide_eq_true k H. cbn in H. apply lookup_insert_Some in H as [[_ [=]]|[_ H]].
  apply lookup_insert_Some in H as [[_ [=]]|[_ H]]. by rewrite lookup_empty in H.
Qed.
Example C145_instance :
  let s := rt_run demo (rt_start demo_bal 65500 (tr_initial demo_bal)) leaving_h in
  let s' := rt_step demo s (STx retiring) in
  g_max (r_mg demo) <= u32_max /\ relays_from 0 leaving_h /\ tx_call retiring = RMsa RetireMsa /\ controls (rs_msa s) (tx_who retiring) 3
  /\ (forall k, ~ controls (rs_msa s') k 3) /\ closed s' 3.
Proof.
  assert (H0 : g_max (r_mg demo) <= u32_max) by (vm_compute; discriminate).
  assert (H1 : relays_from 0 leaving_h) by (vm_compute; repeat split; discriminate).
  assert (H2 : controls (rs_msa (rt_run demo demo_start leaving_h)) (tx_who retiring) 3) by (vm_compute; reflexivity).
  assert (H3 : forall k, ~ controls (rs_msa (rt_step demo (rt_run demo demo_start leaving_h) (STx retiring))) k 3)
    by exact (no_third _ leaving_keys).
  split; [exact H0|]. split; [exact H1|]. split; [reflexivity|]. split; [exact H2|]. split; [exact H3|].
  exact (C145_retiring_closes_partial demo demo_bal 65500 (tr_initial demo_bal) leaving_h retiring 3 H0 H1 eq_refl H2 H3).
Qed.

(** Missing: calls to retire inside of others, for which the delegations are not checked. 5
    retires in a batch while the delegation is in force. A block later, provider 1 stores a page
    of an MSA that nobody controls; nobody but the provider can end this any more. *)
Definition left_h : list RtStep := granted_h ++ [ send 5 1 (RUtility Batch [ROther PSystem; RMsa RetireMsa]) ].
Definition afterwards : list RtStep := [ SBlock 6; write3 6 ].
Lemma left_keys : bool_decide (ms_keys (rs_msa (rt_run demo demo_start left_h)) = list_to_map [(1, 1); (7, 2)]) = true.
Proof. vm_compute. reflexivity. Qed.
Lemma left_page :
  read (r_st demo) (rs_st (rt_run demo demo_start (left_h ++ afterwards))) (PageLoc 3 2 1)
  <> read (r_st demo) (rs_st (rt_run demo demo_start left_h)) (PageLoc 3 2 1).
Proof. vm_compute. discriminate. Qed.
Theorem C145_wrapped_refuted :
  exists cfg b mm v h1 h2 m l, relays_from 0 (h1 ++ h2) /\ loc_ok l /\ loc_msa l = m /\
  let s := rt_run cfg (rt_start b mm v) h1 in
  let s' := rt_run cfg (rt_start b mm v) (h1 ++ h2) in
  (forall k, ~ controls (rs_msa s) k m) /\ rs_block s < rs_block s'
  /\ read (r_st cfg) (rs_st s') l <> read (r_st cfg) (rs_st s) l.
Proof.
  exists demo, demo_bal, 65500, (tr_initial demo_bal), left_h, afterwards, 3, (PageLoc 3 2 1).
  split; [vm_compute; repeat split; discriminate|]. split; [vm_compute; repeat split; try reflexivity; discriminate|]. split; [reflexivity|].
  split; [exact (no_third _ left_keys)|]. split; [vm_compute; reflexivity|exact left_page].
Qed.
Print Assumptions C145_wrapped_refuted.
