(** Vocabulary for who permitted what. *)
From Verif Require Import Prelude CommonTypes MsaModel MsaSpec StModel StSpec MgModel RtModel RtSpec.

(** A call of a pallet that took effect: the state it met, the account it counted as
    coming from (a signer; for proxied calls the account acted for; a multisig), and the
    call. *)
Record Deed := { at_ : RtState; by_ : N; what : RtCall }.

Section deeds.
Variable cfg : RtCfg.

(** The deeds of a batch: [f] runs a call, [g] are its deeds. *)
Definition batch_deeds (k : BatchKind) (f : RtCall -> RtState -> res RtErr RtState) (g : RtCall -> RtState -> list Deed) :
    list RtCall -> RtState -> list Deed :=
  fix go (l : list RtCall) (st : RtState) : list Deed :=
    match l with
    | [] => []
    | c :: l' =>
        match f c st with
        | Ok st' => g c st ++ go l' st'
        | Err _ => match k with ForceBatch => go l' st | _ => [] end
        end
    end.
(** The deeds of a call. A call that fails has none. *)
Fixpoint deeds (c : RtCall) (o : ROrigin) (st : RtState) {struct c} : list Deed :=
  match rt_dispatch cfg c o st with
  | Err _ => []
  | Ok _ =>
      match c with
      | RUtility k calls =>
          let o' := match k with BatchAll => add_filter o not_batch_all | _ => o end in
          batch_deeds k (fun c => rt_dispatch cfg c o') (fun c => deeds c o') calls st
      | RPayBatch calls =>
          let o' := add_filter o not_batch_all in
          batch_deeds BatchAll (fun c => rt_dispatch cfg c o') (fun c => deeds c o') calls st
      | RPay c => deeds c o st
      | RProxy real force c =>
          match find_proxy st real (o_who o) force with
          | Some t => deeds c (add_filter (signed real) (proxied t)) st
          | None => []
          end
      | RMultisig1 others c => deeds c (signed (r_multi cfg (o_who o) others)) st
      | _ => [{| at_ := st; by_ := o_who o; what := c |}]
      end
  end.
(** The deeds of a transaction, after its fee is paid. Passkeys and new blocks do
    nothing that matters here; governance has no signer. *)
Definition step_deeds (st : RtState) (x : RtStep) : list Deed :=
  match x with
  | STx t =>
      match check_nonce st (tx_who t) (tx_nonce t) (negb (is_pays_no_call (tx_call t))) with
      | Err _ => []
      | Ok st1 =>
          match withdraw_fee cfg st1 (tx_who t) (tx_call t) (tx_len t) (tx_tip t) with
          | Err _ => []
          | Ok st2 =>
              match free_use st2 (tx_who t) (tx_call t) with
              | Err _ => []
              | Ok _ => deeds (tx_call t) (signed (tx_who t)) st2
              end
          end
      end
  | _ => []
  end.
(** All deeds of a history, in order. *)
Fixpoint all_deeds (st : RtState) (h : list RtStep) : list Deed :=
  match h with [] => [] | x :: h => step_deeds st x ++ all_deeds (rt_step cfg st x) h end.

(** MSA [d] consents to provider [p] acting for it under schema [s]: a grant that
    names both and is signed by a key of [d]; or by the key for which [p] creates
    the MSA. A key of [p] submits it. *)
Definition consent (g : Deed) (d p s : N) : Prop :=
  exists key proof pl,
    ap_msa pl = p /\ s ∈ ap_schemas pl /\ signed_by (r_msa cfg) proof key (enc_add_provider pl)
    /\ controls (rs_msa (at_ g)) (by_ g) p
    /\ ((what g = RMsa (GrantDelegation key proof pl) /\ controls (rs_msa (at_ g)) key d)
        \/ (what g = RMsa (CreateSponsored key proof pl) /\ d = ms_max (rs_msa (at_ g)) + 1)).

(** The deed [w] is done by a key of [p], who has the permission of [d] at this time,
    which [d] gave by a deed among [before]. *)
Definition with_permission (before : list Deed) (w : Deed) (p d s : N) : Prop :=
  controls (rs_msa (at_ w)) (by_ w) p /\ schema_ok (env_msa (at_ w)) (rs_msa (at_ w)) p d s
  /\ exists g, g ∈ before /\ consent g d p s.
End deeds.
