(** Sums over lists and finite maps. *)
From Verif Require Import Prelude.

Fixpoint sumN (l : list N) : N := match l with [] => 0 | x :: l' => x + sumN l' end.

Lemma sumN_app l k : sumN (l ++ k) = sumN l + sumN k.
Proof. induction l; cbn; lia. Qed.

Lemma sumN_perm l k : Permutation l k -> sumN l = sumN k.
Proof. induction 1; cbn; lia. Qed.

(** Sum of [f key value] over a finite map. *)
Definition msum {K A} `{Countable K} (f : K -> A -> N) (m : gmap K A) : N :=
  sumN (map (fun kv => f kv.1 kv.2) (map_to_list m)).

Section msum.
Context {K A : Type} `{Countable K}.
Implicit Types (f : K -> A -> N) (m : gmap K A).

Lemma msum_empty f : msum f ∅ = 0.
Proof. unfold msum. by rewrite map_to_list_empty. Qed.

Lemma msum_insert_new f m k v : m !! k = None -> msum f (<[k := v]> m) = f k v + msum f m.
Proof.
  intros Hk. unfold msum.
  rewrite (sumN_perm _ (map (fun kv => f kv.1 kv.2) ((k, v) :: map_to_list m))); [done|].
  apply Permutation_map, map_to_list_insert, Hk.
Qed.

Lemma msum_delete f m k v : m !! k = Some v -> msum f m = f k v + msum f (delete k m).
Proof.
  intros Hk. rewrite <- (insert_delete m k v) at 1 by done.
  apply msum_insert_new, lookup_delete.
Qed.

Lemma msum_delete_none f m k : m !! k = None -> msum f (delete k m) = msum f m.
Proof. intros Hk. by rewrite delete_notin. Qed.

Lemma msum_insert f m k v old :
  m !! k = Some old -> msum f (<[k := v]> m) + f k old = msum f m + f k v.
Proof.
  intros Hk. rewrite <- insert_delete_insert, msum_insert_new by apply lookup_delete.
  rewrite (msum_delete f m k old Hk). lia.
Qed.

Lemma msum_lookup_le f m k v : m !! k = Some v -> f k v <= msum f m.
Proof. intros Hk. rewrite (msum_delete f m k v Hk). lia. Qed.

Lemma msum_zero f m : (forall k v, m !! k = Some v -> f k v = 0) -> msum f m = 0.
Proof.
  intros Hz. unfold msum.
  assert (Hl : forall kv, kv ∈ map_to_list m -> f kv.1 kv.2 = 0).
  { intros [k v] Hin. apply elem_of_map_to_list in Hin. by apply Hz. }
  induction (map_to_list m) as [|kv l IH]; [done|]. cbn. rewrite Hl by left.
  rewrite IH; [done|]. intros kv' Hin. apply Hl. by right.
Qed.

Lemma msum_ext f g m : (forall k v, m !! k = Some v -> f k v = g k v) -> msum f m = msum g m.
Proof.
  intros Hfg. unfold msum.
  assert (Hl : forall kv, kv ∈ map_to_list m -> f kv.1 kv.2 = g kv.1 kv.2).
  { intros [k v] Hin. apply elem_of_map_to_list in Hin. by apply Hfg. }
  induction (map_to_list m) as [|kv l IH]; [done|]. cbn. rewrite Hl by left.
  rewrite IH; [done|]. intros kv' Hin. apply Hl. by right.
Qed.

Lemma msum_pos f m : 0 < msum f m -> exists k v, m !! k = Some v /\ 0 < f k v.
Proof.
  unfold msum. intros Hs.
  assert (exists kv, kv ∈ map_to_list m /\ 0 < f kv.1 kv.2) as ([k v] & Hin & Hp).
  { induction (map_to_list m) as [|kv l IH]; cbn in Hs; [lia|].
    destruct (N.eq_dec (f kv.1 kv.2) 0) as [E|E].
    - destruct IH as (x & Hx & Hp); [lia|]. exists x. split; [by right|done].
    - exists kv. split; [left|lia]. }
  exists k, v. split; [|done]. by apply elem_of_map_to_list.
Qed.
End msum.
