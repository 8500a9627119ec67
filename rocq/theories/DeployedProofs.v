(** Proof of C129: no account is left with less than the existential deposit. *)
From Verif Require Import Prelude CommonTypes CapModel TrModel FeeModel RtModel RtSpec RtProofs RtProj RtFinal RtMore.

Section dust.
Variable cfg : RtCfg.
Definition no_dust (s : RtState) : Prop := forall a x, rs_bal s !! a = Some x -> r_ed cfg <= x <= u128_max.

Lemma dust_debit s k w a s' : token_debit cfg s k w a = Some s' -> no_dust s -> no_dust s'.
Proof.
  unfold token_debit. intros H Hn. destruct (N.ltb_spec (balance s w) a) as [|Ha]; [done|]. destruct (_ <? RtModel.frozen _ _); [done|].
  assert (Hb : balance s w = 0 \/ balance s w <= u128_max).
  { unfold balance. destruct (rs_bal s !! w) as [x|] eqn:E; [right; apply Hn in E; unfold default, id; lia|by left]. }
  destruct (N.ltb_spec (balance s w - a) (r_ed cfg)) as [|He].
  - destruct (_ || _); [done|]. injection H as <-. intros b x. cbn [rs_bal up_nonce_ up_bal_]. rewrite lookup_delete_Some. intros [_ H]. by apply Hn in H.
  - injection H as <-. intros b x. cbn [rs_bal up_bal_]. rewrite lookup_insert_Some. intros [[_ <-]|[_ H]]; [|by apply Hn in H].
    unfold u128_max in *. lia.
Qed.
Lemma dust_credit s to a s' : token_credit cfg s to a = Some s' -> no_dust s -> no_dust s'.
Proof.
  unfold token_credit. intros H Hn. destruct (N.ltb_spec (balance s to + a) (r_ed cfg)) as [|H1]; [done|].
  destruct (N.ltb_spec u128_max (balance s to + a)) as [|H2]; [done|]. injection H as <-.
  intros b x. cbn [rs_bal up_bal_]. rewrite lookup_insert_Some. intros [[_ <-]|[_ H]]; [done|by apply Hn in H].
Qed.
Lemma dust_transfer s k w to a s' : token_transfer cfg s k w to a = Ok s' -> no_dust s -> no_dust s'.
Proof.
  unfold token_transfer. intros H. destruct (_ =? _); [destruct (token_debit cfg s k w a), (token_credit cfg s to a); try done; by injection H as <-|].
  destruct (token_debit _ _ _ _ _) as [s1|] eqn:E1; [|done]. destruct (token_credit _ _ _ _) as [s2|] eqn:E2; [|done]. injection H as <-.
  intros Hn. eapply dust_credit; [exact E2|]. by eapply dust_debit.
Qed.
Lemma dust_step x s : no_dust s -> no_dust (rt_step cfg s x).
Proof.
  apply (step_rel cfg (fun a b => no_dust a -> no_dust b)); try done; try tauto.
  - intros s0 k w a y H. by eapply dust_debit.
  - intros c o s0 s' _ Hp H. destruct (leaf_bal _ _ _ _ _ Hp H) as [[E _]|(k & to & a & s1 & Ht & E & _)]; unfold no_dust; rewrite E; [done|].
    exact (dust_transfer _ _ _ _ _ _ Ht).
  - intros c s0 s' _ H. destruct c; cbn [gov_apply] in H; apply lift_ok in H as (y & H & E); injection E as <-; done.
Qed.
Lemma no_dust_run h : forall s, no_dust s -> no_dust (rt_run cfg s h).
Proof. induction h as [|x h IH]; intros s Hn; [done|]. apply IH. by apply dust_step. Qed.
End dust.
