(** Properties C106 and C124 for the content identifiers of IPFS messages. [other]
    is the decoding of the bases other than base32, which is 98, the letter b. *)
From Coq Require Import String Ascii.
From Verif Require Import Prelude CommonTypes SigModel MsaModel MsaSpec MgModel MgSpec CidSpec CidModel CidProofs MgProperties.

(** ** C106, with the actual base32: a message sent with a content identifier in
    base32 reads back with the very same text ... *)
Theorem C106_unchanged :
  forall other env st who s c length st',
  length <= u32_max -> mg_dispatch (ipfs_cfg other) env st (Signed who) (AddIpfsMessage s (98 :: c) length) = Ok st' ->
  exists r, r ∈ get_messages (ipfs_cfg other) st' s IPFS (mg_block st) /\ mr_index r = mg_index st
    /\ mr_cid r = Some (98 :: c) /\ mr_length r = Some length.
Proof. exact unchanged. Qed.
Print Assumptions C106_unchanged.
(** ... and one sent in another base reads back in base32, as the same bytes. *)
Theorem C106_other_base :
  forall other env st who s cid length st' b,
  length <= u32_max -> mg_dispatch (ipfs_cfg other) env st (Signed who) (AddIpfsMessage s cid length) = Ok st' ->
  multibase_decode other cid = Some b -> bytes b ->
  exists r c, r ∈ get_messages (ipfs_cfg other) st' s IPFS (mg_block st) /\ mr_index r = mg_index st
    /\ mr_cid r = Some (98 :: c) /\ base32 b c /\ mr_length r = Some length.
Proof. exact other_base. Qed.
Print Assumptions C106_other_base.

(** ** C124: content identifiers are CIDs of version 1. Every one is accepted ... *)
Theorem C124_version1_accepted :
  forall other env st who m info s bs codec hash digest c length,
  controls (gv_msa env) who m -> gv_schema env s = Some info -> si_location info = IPFS ->
  cid_v1 bs codec hash digest -> base32 bs c ->
  is_ok (mg_dispatch (ipfs_cfg other) env st (Signed who) (AddIpfsMessage s (98 :: c) length)) = true.
Proof. exact v1_accepted. Qed.
Print Assumptions C124_version1_accepted.
(** ... and what is accepted in base32 begins with a CID. *)
Theorem C124_accepted_partial :
  forall other env st who s c length st',
  mg_dispatch (ipfs_cfg other) env st (Signed who) (AddIpfsMessage s (98 :: c) length) = Ok st' ->
  exists b pre rest, bytes b /\ base32 b c /\ b = pre ++ rest /\ (cid_v1_loose pre \/ cid_v0_loose pre).
Proof. exact accepted_cid. Qed.
Print Assumptions C124_accepted_partial.
Lemma written bs : bytes bs -> exists c, base32 bs c.
Proof. intros H. exists (enc32 bs). by apply enc_base32. Qed.

(** Version 1, raw (85), SHA-256 (18), 32 bytes *)
Definition digest32 : list N := map N.of_nat (seq 100 32).
Definition sample_v1 : list N := 1 :: 85 :: 18 :: 32 :: digest32.
Definition no_other (_ : N) (_ : list N) : option (list N) := None.
Definition sent (b : list N) : res MgErr MgState :=
  mg_dispatch (ipfs_cfg no_other) mg_view mg_genesis (Signed 2) (AddIpfsMessage 6 (98 :: enc32 b) 77).
Lemma digest_bytes : bytes digest32 /\ len digest32 = 32.
Proof. split; [|reflexivity]. unfold bytes. repeat constructor. Qed.
Example C124_nonvacuous :
  cid_v1 sample_v1 85 18 digest32 /\ base32 sample_v1 (enc32 sample_v1) /\ is_ok (sent sample_v1) = true
  /\ take 8 (enc32 sample_v1) = [97; 102; 107; 114; 101; 105; 100; 101] (* afkreide *)
  /\ is_ok (sent (2 :: 85 :: 18 :: 32 :: digest32)) = false /\ is_ok (sent (1 :: 85 :: 18 :: 33 :: digest32)) = false
  /\ is_ok (mg_dispatch (ipfs_cfg no_other) mg_view mg_genesis (Signed 2) (AddIpfsMessage 6 [98; 97; 49] 77)) = false.
Proof.
  destruct digest_bytes as [Hb Hl]. split.
  { split; [reflexivity|]. split; [reflexivity|]. rewrite Hl. split; [discriminate|]. split; [exact Hb|]. exists [85], [18].
    split; [constructor; reflexivity|]. split; [constructor; reflexivity|reflexivity]. }
  split; [apply enc_base32; unfold bytes; repeat constructor|]. vm_compute. repeat split.
Qed.

Definition text (s : string) : list N := map N_of_ascii (list_ascii_of_string s).
(** The same message, and one in a base (letter f) that writes each byte as itself *)
Definition plain (c : N) (r : list N) : option (list N) := if c =? 102 then Some r else None.
Example C106_nonvacuous :
  (exists st', mg_dispatch (ipfs_cfg no_other) mg_view mg_genesis (Signed 2) (AddIpfsMessage 6 (98 :: enc32 sample_v1) 77) = Ok st'
    /\ map mr_cid (get_messages (ipfs_cfg no_other) st' 6 IPFS 0) = [Some (98 :: enc32 sample_v1)])
  /\ (exists st', mg_dispatch (ipfs_cfg plain) mg_view mg_genesis (Signed 2) (AddIpfsMessage 6 [102; 1; 85; 18; 0] 77) = Ok st'
    /\ multibase_decode plain [102; 1; 85; 18; 0] = Some [1; 85; 18; 0]
    /\ map mr_cid (get_messages (ipfs_cfg plain) st' 6 IPFS 0) = [Some (text "bafkreaa")]).
Proof. split; eexists; split; [vm_compute; reflexivity| |vm_compute; reflexivity|]; [|split]; vm_compute; reflexivity. Qed.

(** The identifiers of the repository's own tests (pallets/messages/src/tests/mock.rs:31-32,
    other_tests.rs:31): raw, with SHA-256 and SHA-512. *)
Example C124_repository_cids :
  option_map (fun b => (option_map (fun c => (cid_version c, cid_codec c, cid_hash c, len (cid_digest c))) (cid_read b), multibase_encode b))
    (multibase_decode no_other (text "bafkreieb2x7yyuhy6hmct4j7tkmgnthrfpqyo4mt5nscx7pvc6oiweiwjq"))
  = Some (Some (1, 85, 18, 32), text "bafkreieb2x7yyuhy6hmct4j7tkmgnthrfpqyo4mt5nscx7pvc6oiweiwjq")
  /\ option_map (fun b => option_map (fun c => (cid_version c, cid_codec c, cid_hash c, len (cid_digest c))) (cid_read b))
    (multibase_decode no_other (text "bafkrgqb76pscorjihsk77zpyst3p364zlti6aojlu4nga34vhp7t5orzwbwwytvp7ej44r5yhjzneanqwb5arcnvuvfwo2d4qgzyx5hymvto4"))
  = Some (Some (1, 85, 19, 64)).
Proof. split; vm_compute; reflexivity. Qed.

(** Missing, and false: a CID of version 0 is refused only in its own notation
    (Qm...). Written in base32 it is accepted, and so reported. *)
Theorem C124_version0_refuted :
  exists env st who s c b digest, cid_v0 b digest /\ base32 b c
  /\ forall other length, is_ok (mg_dispatch (ipfs_cfg other) env st (Signed who) (AddIpfsMessage s (98 :: c) length)) = true.
Proof.
  destruct digest_bytes as [Hb Hl].
  exists mg_view, mg_genesis, 2, 6, (enc32 (18 :: 32 :: digest32)), (18 :: 32 :: digest32), digest32. split; [done|].
  split; [apply enc_base32; unfold bytes; repeat constructor|]. intros other length. vm_compute. reflexivity.
Qed.
Print Assumptions C124_version0_refuted.
(** And what follows a CID is not looked at, but kept and reported: bytes that are no
    content identifier of any version are accepted. *)
Theorem C124_trailing_refuted :
  exists env st who s c b, bytes b /\ base32 b c
  /\ (forall codec hash digest, ~ cid_v1 b codec hash digest) /\ (forall digest, ~ cid_v0 b digest)
  /\ forall other length, is_ok (mg_dispatch (ipfs_cfg other) env st (Signed who) (AddIpfsMessage s (98 :: c) length)) = true.
Proof.
  exists mg_view, mg_genesis, 2, 6, (enc32 [1; 85; 18; 0; 7]), [1; 85; 18; 0; 7].
  assert (Hb : bytes [1; 85; 18; 0; 7]) by (repeat constructor).
  split; [exact Hb|]. split; [by apply enc_base32|]. split; [|split].
  - intros codec hash d (_ & _ & _ & _ & lc & lh & Hc & Hh & E). injection E as E.
    assert (forall l n r, varint l n -> forall b r', l ++ r = b :: r' -> b < 128 -> l = [b] /\ r = r') as Hone.
    { intros l n r Hv b r' El Hlt. destruct Hv as [x Hx|x l n Hx _ _]; injection El as <- <-; [done|lia]. }
    destruct (Hone lc codec _ Hc _ _ (eq_sym E) eq_refl) as [-> E1]. destruct (Hone lh hash _ Hh _ _ E1 eq_refl) as [-> E2]. injection E2 as E3 E4. subst d. cbn in E3. discriminate.
  - intros d (_ & _ & E). discriminate.
  - intros other length. vm_compute. reflexivity.
Qed.
Print Assumptions C124_trailing_refuted.
