(** Lemmas about capacity fees. *)
From Verif Require Import Prelude CapModel FeeModel.

Definition half : N := 499999999.
Lemma perbill_round p n : perbill_mul p n = (p * n + half) / billion.
Proof.
  unfold perbill_mul, half, billion. set (x := p * n).
  pose proof (N.div_mod x 1000000000 ltac:(lia)) as E. pose proof (N.mod_lt x 1000000000 ltac:(lia)) as L.
  set (q := x / 1000000000) in *. set (r := x mod 1000000000) in *. change (1000000000 / 2) with 500000000.
  destruct (500000000 <? r) eqn:H.
  - apply N.ltb_lt in H. apply (N.div_unique _ _ (q + 1) (r - 500000001)); lia.
  - apply N.ltb_ge in H. apply (N.div_unique _ _ q (r + 499999999)); lia.
Qed.
Lemma coeffs : coeff_integer = 0 /\ coeff_frac = 1686141.
Proof. split; vm_compute; reflexivity. Qed.
Lemma base_fee : weight_to_fee capacity_base_weight = 177812.
Proof. vm_compute. reflexivity. Qed.

(** The weight fee, below the cap and in general. *)
Definition time_fee (t : N) : N := (1686141 * N.min t 500000000000 + half) / billion.
Lemma time_fee_bound t : time_fee t <= 843070500.
Proof.
  unfold time_fee. transitivity ((1686141 * 500000000000 + half) / billion); [|vm_compute; discriminate].
  apply N.div_le_mono; [done|]. lia.
Qed.
Lemma weight_fee_eq w : weight_to_fee w = time_fee (w_time w).
Proof.
  unfold weight_to_fee, polynomial. destruct coeffs as [-> ->]. rewrite perbill_round.
  cbn [w_time w_min max_block w_parts]. pose proof (time_fee_bound (w_time w)) as B. unfold time_fee in *.
  unfold sat_add, sat_mul, u128_max. lia.
Qed.
Lemma time_fee_mono a b : a <= b -> time_fee a <= time_fee b.
Proof. intros H. unfold time_fee. apply N.div_le_mono; [done|]. lia. Qed.

Lemma fee_formula n w : n <= u32_max -> compute_capacity_fee n w = 177812 + time_fee (w_time w) + 10000 * n.
Proof.
  intros H. unfold compute_capacity_fee. rewrite base_fee, weight_fee_eq. pose proof (time_fee_bound (w_time w)).
  unfold length_to_fee, byte_fee, sat_add, sat_mul, u128_max, u32_max in *. lia.
Qed.
Lemma fee_mono n n' w w' : n <= n' -> w_time w <= w_time w' -> compute_capacity_fee n w <= compute_capacity_fee n' w'.
Proof.
  intros H W. unfold compute_capacity_fee. rewrite base_fee, !weight_fee_eq. pose proof (time_fee_mono _ _ W).
  unfold length_to_fee, byte_fee, sat_add, sat_mul, u128_max in *. lia.
Qed.
Lemma fee_min n w : 177812 <= compute_capacity_fee n w.
Proof. unfold compute_capacity_fee. rewrite base_fee. unfold sat_add, u128_max. lia. Qed.

(** ** Sums *)
Lemma some_eq (a b : N) : Some a = Some b -> a = b.
Proof. congruence. Qed.
Lemma charge_estimate ws : forall a w, charge_weight ws a = Some w ->
  w = fold_left (fun acc w => w_add acc (default w_zero w)) ws a /\ Forall (fun x => x <> None) ws.
Proof.
  induction ws as [|[x|] ws IH]; cbn; intros a w H; [by inversion H| |done].
  apply IH in H as [-> F]. split; [done|]. by constructor.
Qed.
Lemma charge_some ws : forall a, charge_weight ws a <> None <-> Forall (fun x => x <> None) ws.
Proof.
  induction ws as [|[x|] ws IH]; cbn; intros a.
  - split; [constructor|done].
  - rewrite IH. split; [by constructor|]. intros H. by inversion H.
  - split; [done|]. intros H. by inversion H.
Qed.
Lemma charge_grows ws : forall a w, charge_weight ws a = Some w -> w_time a <= u64_max -> w_time a <= w_time w <= u64_max.
Proof.
  induction ws as [|[x|] ws IH]; cbn [charge_weight]; intros a w H L; [inversion H; subst; lia| |done].
  apply IH in H; cbn [w_add w_time] in *; unfold sat_add in *; lia.
Qed.
Lemma charge_app ws x : forall a, charge_weight (ws ++ [Some x]) a = match charge_weight ws a with Some w => Some (w_add w x) | None => None end.
Proof. induction ws as [|[y|] ws IH]; cbn; intros a; [done|apply IH|done]. Qed.
Lemma charge_times ws : forall a w, charge_weight ws a = Some w -> w_time a <= u64_max ->
  w_time w = N.min u64_max (w_time a + foldr (fun x acc => w_time (default w_zero x) + acc) 0 ws).
Proof.
  induction ws as [|[x|] ws IH]; cbn [charge_weight foldr]; intros a w H L; [inversion H; subst; lia| |done].
  apply IH in H; cbn [w_add w_time default] in *; unfold sat_add in *; cbn [from_option id]; lia.
Qed.

Lemma batch_fee_grows ws x n fee : capacity_charge ws n = Some fee ->
  exists fee', capacity_charge (ws ++ [Some x]) n = Some fee' /\ fee <= fee'.
Proof.
  unfold capacity_charge. rewrite charge_app. destruct (charge_weight ws w_zero) as [w|] eqn:E; [|done]. intros H%some_eq. rewrite <- H.
  eexists. split; [reflexivity|]. apply fee_mono; [done|]. apply charge_grows in E; [|done].
  cbn [w_add w_time]. unfold sat_add. lia.
Qed.

Lemma charge_exact ws n fee : n <= u32_max ->
  capacity_charge ws n = Some fee <->
  Forall (fun x => x <> None) ws /\
  fee = 177812 + time_fee (foldr (fun x acc => w_time (default w_zero x) + acc) 0 ws) + 10000 * n.
Proof.
  intros Hn. unfold capacity_charge. destruct (charge_weight ws w_zero) as [w|] eqn:E.
  - rewrite fee_formula by done. pose proof (charge_times _ _ _ E ltac:(done)) as T. cbn [w_time w_zero] in T.
    assert (F : Forall (fun x => x <> None) ws) by (apply (charge_some ws w_zero); by rewrite E).
    assert (time_fee (w_time w) = time_fee (foldr (fun x acc => w_time (default w_zero x) + acc) 0 ws)) as ->.
    { rewrite T. unfold time_fee. f_equal. unfold u64_max. lia. }
    split; [intros H%some_eq; by rewrite <- H|]. intros [_ H]. by rewrite H.
  - split; [done|]. intros [F _]. by apply (charge_some ws w_zero) in F.
Qed.

(** ** The estimate *)
Lemma estimate_charge ws w n dispatch :
  charge_weight ws w_zero = Some w -> w_is_zero w = false -> n <= u32_max ->
  w_time w + w_time dispatch <= u64_max -> w_proof w + w_proof dispatch <= u64_max ->
  final_fee (fee_details ws dispatch n) = 177812 + time_fee (w_time w + w_time dispatch) + 10000 * n.
Proof.
  intros E Z Hn Ht Hp. pose proof (charge_estimate _ _ _ E) as [Ew _]. unfold fee_details, estimate_weight. rewrite <- Ew, Z.
  unfold w_checked_add, chk_add. rewrite !(proj2 (N.leb_le _ _)) by done.
  cbn [final_fee fd_inclusion fd_tip]. rewrite base_fee, weight_fee_eq. cbn [w_time].
  pose proof (time_fee_bound (w_time w + w_time dispatch)).
  unfold length_to_fee, byte_fee, sat_add, sat_mul, u128_max, u32_max in *. lia.
Qed.
