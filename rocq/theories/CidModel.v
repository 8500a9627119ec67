(** The content identifiers of IPFS messages: what pallets/messages/src/lib.rs:376-390
    and types.rs:40-77 use of the crates multibase 0.9, cid 0.11, multihash 0.19 and
    unsigned-varint. These are dependencies; the functions below follow their
    sources, and take the place of the parameters of [MgCfg]. *)
From Verif Require Import Prelude MgModel.

(** ** Bits, the first bit the highest *)
Fixpoint to_bits (w : nat) (n : N) : list bool :=
  match w with O => [] | S w' => N.testbit n (N.of_nat w') :: to_bits w' n end.
Definition of_bits (l : list bool) : N := fold_left (fun acc b => 2 * acc + N.b2n b) l 0.
(** The numbers of [w] bits that a row of bits spells; the last is filled with
    zeros. [fuel] is at least the number of bits. *)
Fixpoint groups (fuel w : nat) (bits : list bool) : list N :=
  match fuel, bits with
  | S f, _ :: _ => of_bits (take w (bits ++ repeat false w)) :: groups f w (drop w bits)
  | _, _ => []
  end.

(** ** multibase: Base32Lower, without padding *)
(** The alphabet [abcdefghijklmnopqrstuvwxyz234567] *)
Definition sym32 (v : N) : N := if v <? 26 then 97 + v else 24 + v.
Definition val32 (c : N) : option N :=
  if (97 <=? c) && (c <=? 122) then Some (c - 97)
  else if (50 <=? c) && (c <=? 55) then Some (c - 24)
  else None.
Definition enc32 (bs : list N) : list N :=
  let bits := concat (map (to_bits 8) bs) in map sym32 (groups (length bits) 5 bits).
(** data-encoding: the number of symbols must be one that [enc32] produces, and the
    bits that are left must be zero. *)
Definition dec32 (s : list N) : option (list N) :=
  match mapM val32 s with
  | None => None
  | Some vs =>
      let bits := concat (map (to_bits 5) vs) in
      let n := (length bits / 8)%nat in
      if (length s =? (8 * n + 4) / 5)%nat && forallb negb (drop (8 * n) bits)
      then Some (groups (8 * n) 8 (take (8 * n) bits)) else None
  end.
(** [multibase::decode], of the bytes of a text: the first character selects the
    base. [other] stands for the other bases. *)
Definition multibase_decode (other : N -> list N -> option (list N)) (s : list N) : option (list N) :=
  match s with
  | [] => None
  | c :: r => if c =? 98 then dec32 r else other c r
  end.
(** [multibase::encode(Base::Base32Lower, _)] *)
Definition multibase_encode (bs : list N) : list N := 98 :: enc32 bs.

(** ** unsigned-varint, [decode::u64] of what [varint_read_u64] collects. [i] bytes
    were read; the tenth is the last, and its bits beyond the 64th are dropped. *)
Fixpoint read_varint (room : nat) (i : N) (bs : list N) : option (N * list N) :=
  match room, bs with
  | S room', b :: r =>
      let k := N.shiftl (b mod 128) (7 * i) mod 2 ^ 64 in
      if b <? 128 then if (b =? 0) && (0 <? i) then None else Some (k, r)
      else match read_varint room' (i + 1) r with Some (n, r') => Some (N.lor k n, r') | None => None end
  | _, _ => None
  end.
Definition varint_read_u64 : list N -> option (N * list N) := read_varint 10 0.

(** ** cid: [Cid::read_bytes], with [Multihash::<64>::read]. The version, the codec,
    the hash function and the digest; bytes that are left are not looked at. *)
Record Cid := { cid_version : N; cid_codec : N; cid_hash : N; cid_digest : list N }.
Definition cid_read (bs : list N) : option Cid :=
  match varint_read_u64 bs with
  | None => None
  | Some (version, r1) =>
      match varint_read_u64 r1 with
      | None => None
      | Some (codec, r2) =>
          if (version =? 18) && (codec =? 32) then
            if 32 <=? len r2
            then Some {| cid_version := 0; cid_codec := 112; cid_hash := 18; cid_digest := take 32 r2 |} else None
          else if version =? 1 then
            match varint_read_u64 r2 with
            | None => None
            | Some (hash, r3) =>
                match varint_read_u64 r3 with
                | None => None
                | Some (size, r4) =>
                    if (size <=? 64) && (size <=? len r4)
                    then Some {| cid_version := 1; cid_codec := codec; cid_hash := hash; cid_digest := take (N.to_nat size) r4 |} else None
                end
            end
          else None
      end
  end.
Definition cid_ok (bs : list N) : bool := match cid_read bs with Some _ => true | None => false end.

(** The configuration of the runtime (runtime/common/src/constants.rs:268) *)
Definition ipfs_cfg (other : N -> list N -> option (list N)) : MgCfg :=
  runtime_messages (multibase_decode other) cid_ok multibase_encode.
