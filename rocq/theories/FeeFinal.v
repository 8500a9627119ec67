(** The lemmas behind the theorems about fees. *)
From Verif Require Import Prelude FeeModel RtModel FeeSpec FeeProofs.

Lemma price_is t : price t = time_fee t.
Proof. reflexivity. Qed.
Lemma foldr_map_time l :
  foldr (fun x acc => w_time (default w_zero x) + acc) 0 (map get_stable_weight l) = total_time l.
Proof. induction l as [|c l IH]; cbn [map foldr total_time]; [done|]. by rewrite IH. Qed.
Lemma payable_iff c : payable c <-> get_stable_weight c <> None.
Proof. destruct c as [[]|[]|[]|[]|[]|[]|[]|[]| | | | | | |]; cbn; split; intros H; try done; congruence. Qed.
Lemma eligible_map l : Forall (fun x => x <> None) (map get_stable_weight l) <-> eligible l.
Proof. unfold eligible. rewrite Forall_fmap. split; intros H; (eapply Forall_impl; [exact H|]; intros c; cbn; apply payable_iff). Qed.

Lemma charge_calls l n fee : n <= u32_max ->
  capacity_charge (map get_stable_weight l) n = Some fee <-> eligible l /\ fee = 177812 + price (total_time l) + 10000 * n.
Proof. intros H. rewrite charge_exact by done. rewrite foldr_map_time, <- price_is.
  split; intros [A B]; (split; [by apply eligible_map|exact B]). Qed.

Lemma price_mono a b : a <= b -> price a <= price b.
Proof. apply time_fee_mono. Qed.

Lemma stable_time c w : get_stable_weight c = Some w -> 25000000 <= w_time w.
Proof.
  destruct c as [[]|[]|[]|[]|[]|[]|[]|[]| | | | | | |]; cbn [get_stable_weight]; intros H; try discriminate;
    apply (f_equal (default w_zero)) in H; cbn [default from_option id] in H; rewrite <- H; clear H;
    unfold stable; cbn [w_time w_add w_mul w_parts]; unfold sat_add, sat_mul, u64_max; lia.
Qed.

Lemma charge_nonzero l w : charge_weight (map get_stable_weight l) w_zero = Some w -> l <> [] -> w_is_zero w = false.
Proof.
  destruct l as [|c l]; [done|]. cbn [map charge_weight]. intros H _. destruct (get_stable_weight c) as [x|] eqn:E; [|done].
  apply stable_time in E. apply charge_grows in H; cbn [w_add w_time w_zero] in *; unfold sat_add in *; [|lia].
  unfold w_is_zero. destruct (w_time w =? 0) eqn:Z; [|done]. apply N.eqb_eq in Z. unfold u64_max in *. lia.
Qed.

Lemma charge_proofs ws : forall a w, charge_weight ws a = Some w -> w_proof a <= u64_max ->
  w_proof w = N.min u64_max (w_proof a + foldr (fun x acc => w_proof (default w_zero x) + acc) 0 ws).
Proof.
  induction ws as [|[x|] ws IH]; cbn [charge_weight foldr]; intros a w H L; [inversion H; subst; lia| |done].
  apply IH in H; cbn [w_add w_proof default] in *; unfold sat_add in *; cbn [from_option id]; lia.
Qed.
Lemma foldr_map_proof l :
  foldr (fun x acc => w_proof (default w_zero x) + acc) 0 (map get_stable_weight l) = total_proof l.
Proof. induction l as [|c l IH]; cbn [map foldr total_proof]; [done|]. by rewrite IH. Qed.

Lemma wraps_inner c calls : wraps c calls -> get_inner_calls c = calls.
Proof. by intros [(x & -> & ->)| ->]. Qed.

Lemma estimate_lemma inner c calls n : get_inner_calls c = calls -> eligible calls -> calls <> [] -> n <= u32_max ->
  total_time calls + w_time (dispatch_weight inner c) <= u64_max ->
  total_proof calls + w_proof (dispatch_weight inner c) <= u64_max ->
  rpc_fee inner c n = 177812 + price (total_time calls + w_time (dispatch_weight inner c)) + 10000 * n.
Proof.
  intros <- E NE Hn Ht Hp. unfold rpc_fee. set (l := get_inner_calls c) in *.
  destruct (charge_weight (map get_stable_weight l) w_zero) as [w|] eqn:W.
  2: { apply eligible_map in E. by apply (charge_some _ w_zero) in E. }
  pose proof (charge_times _ _ _ W ltac:(done)) as T. pose proof (charge_proofs _ _ _ W ltac:(done)) as P.
  rewrite foldr_map_time in T. rewrite foldr_map_proof in P. cbn [w_time w_proof w_zero] in T, P.
  rewrite N.add_0_l in T, P. rewrite N.min_r in T by lia. rewrite N.min_r in P by lia.
  rewrite (estimate_charge _ w); [by rewrite T, <- price_is|done| |done|by rewrite T|by rewrite P].
  by apply (charge_nonzero l).
Qed.

Lemma dispatch_time inner c calls : wraps c calls -> 153326000 <= w_time (dispatch_weight inner c).
Proof.
  intros [(x & -> & ->)| ->]; cbn [dispatch_weight w_add w_time w_parts overhead_weight]; unfold sat_add, u64_max; lia.
Qed.
Lemma price_gap t d : 153326000 <= d -> t + d <= 500000000000 -> price t + 258529 <= price (t + d).
Proof.
  intros H B. unfold price. rewrite !N.min_l by lia.
  rewrite <- (N.div_add (1686141 * t + 499999999) 258529 1000000000) by done. apply N.div_le_mono; [done|]. lia.
Qed.

Lemma stable_fits c : total_time [c] <= u64_max /\ total_proof [c] <= u64_max.
Proof.
  unfold total_time, total_proof. cbn [foldr]. rewrite !N.add_0_r.
  destruct (get_stable_weight c) as [w|] eqn:H; [|cbn; unfold u64_max; lia].
  destruct c as [[]|[]|[]|[]|[]|[]|[]|[]| | | | | | |]; cbn [get_stable_weight] in H; try discriminate;
    rewrite <- H; clear H; cbn [default from_option id];
    unfold stable; cbn [w_time w_proof w_add w_mul w_parts]; unfold sat_add; lia.
Qed.
