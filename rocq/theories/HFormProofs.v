(** Which base handles share a canonical form. *)
From Verif Require Import Prelude Utf8 HConfusables HModel HSpec.

(** What every Unicode table says of ASCII letters. *)
Definition letters_plain (un : Unicode) : Prop :=
  forall c, 65 <= c <= 90 \/ 97 <= c <= 122 -> un_decomp un c = [c] /\ un_ccc un c = 0 /\ un_mark un c = false.
(** The same letter up to case, except L. *)
Definition letter (c : N) : Prop := 65 <= c <= 90 \/ 97 <= c <= 122.
Definition same_letter (a b : N) : Prop :=
  a = b \/ (letter a /\ letter b /\ ascii_lower a = ascii_lower b /\ ascii_lower a <> 108).

Lemma form_no_capitals cfg s : Forall (fun c => ~ (65 <= c <= 90)) (form cfg s).
Proof.
  unfold form, convert_to_canonical. apply Forall_forall. intros c (a & -> & _)%elem_of_list_fmap.
  unfold ascii_lower. destruct ((65 <=? a) && (a <=? 90)) eqn:E; lia.
Qed.

Lemma letter_not_white a : letter a -> is_whitespace a = false.
Proof. unfold letter, is_whitespace. intros H. repeat rewrite ?orb_false_iff, ?andb_false_iff. lia. Qed.
Lemma letter_decompose un a : letters_plain un -> letter a -> decompose un a = [a].
Proof.
  intros Hu H. unfold decompose. destruct ((44032 <=? a) && (a <? 55204)) eqn:E; [unfold letter in H; lia|]. by apply Hu.
Qed.

Section form.
Variable un : Unicode.
Hypothesis Hun : letters_plain un.

Lemma same_white a b : same_letter a b -> is_whitespace a = is_whitespace b.
Proof. intros [->|(H1 & H2 & _)]; [done|]. by rewrite !letter_not_white. Qed.
Lemma same_ccc a b : same_letter a b -> un_ccc un a = un_ccc un b.
Proof. intros [->|(H1 & H2 & _)]; [done|]. destruct (Hun a H1) as (_ & -> & _). by destruct (Hun b H2) as (_ & -> & _). Qed.
Lemma same_mark a b : same_letter a b -> un_mark un a = un_mark un b.
Proof. intros [->|(H1 & H2 & _)]; [done|]. destruct (Hun a H1) as (_ & _ & ->). by destruct (Hun b H2) as (_ & _ & ->). Qed.
Lemma same_refl l : Forall2 same_letter l l.
Proof. induction l; constructor; [by left|done]. Qed.
Lemma same_decompose a b : same_letter a b -> Forall2 same_letter (decompose un a) (decompose un b).
Proof.
  intros H. destruct H as [->|(H1 & H2 & H3)]; [apply same_refl|]. rewrite !letter_decompose by done. constructor; [|constructor]. right. done.
Qed.
Lemma filter_same (f : N -> bool) s t : (forall a b, same_letter a b -> f a = f b) ->
  Forall2 same_letter s t -> Forall2 same_letter (List.filter f s) (List.filter f t).
Proof.
  intros Hf. induction 1 as [|a b s t H Hs IH]; [constructor|]. cbn. rewrite (Hf a b H). destruct (f b); [by constructor|done].
Qed.
Lemma flat_same s t : Forall2 same_letter s t -> Forall2 same_letter (flat_map (decompose un) s) (flat_map (decompose un) t).
Proof. induction 1; cbn; [constructor|]. apply Forall2_app; [by apply same_decompose|done]. Qed.
Lemma push_same a b : same_letter a b -> forall acc acc', Forall2 same_letter acc acc' ->
  Forall2 same_letter (ccc_push un a acc) (ccc_push un b acc').
Proof.
  intros H. induction 1 as [|x y acc acc' Hx Hacc IH]; cbn; [constructor; [done|constructor]|].
  rewrite (same_ccc a b H), (same_ccc x y Hx). destruct (_ && _); [by constructor|]. constructor; [done|by constructor].
Qed.
Lemma Forall2_rev_same s t : Forall2 same_letter s t -> Forall2 same_letter (rev s) (rev t).
Proof. induction 1; cbn; [constructor|]. apply Forall2_app; [done|]. by constructor. Qed.
Lemma nfkd_same s t : Forall2 same_letter s t -> Forall2 same_letter (nfkd un s) (nfkd un t).
Proof.
  intros H. unfold nfkd. apply Forall2_rev_same. apply flat_same in H.
  assert (Hg : forall acc acc', Forall2 same_letter acc acc' ->
    Forall2 same_letter (fold_left (fun acc c => ccc_push un c acc) (flat_map (decompose un) s) acc)
      (fold_left (fun acc c => ccc_push un c acc) (flat_map (decompose un) t) acc')).
  { induction H as [|a b l k Hab Hl IH]; intros acc acc' Hacc; [done|]. cbn. apply IH. by apply push_same. }
  apply Hg. constructor.
Qed.
Lemma form_same cf s t : (forall a b, same_letter a b -> ascii_lower (cf a) = ascii_lower (cf b)) ->
  Forall2 same_letter s t -> convert_to_canonical cf un s = convert_to_canonical cf un t.
Proof.
  intros Hcf H. unfold convert_to_canonical, replace_confusables, strip_diacriticals, strip_unicode_whitespace.
  apply (filter_same (fun c => negb (is_whitespace c))) in H; [|intros a b Hab; by rewrite (same_white a b Hab)].
  apply nfkd_same in H. apply (filter_same (fun c => negb (un_mark un c))) in H; [|intros a b Hab; by rewrite (same_mark a b Hab)].
  induction H as [|a b l k Hab Hl IH]; [done|]. cbn. by rewrite (Hcf a b Hab), IH.
Qed.
End form.

(** The table of the runtime, letter by letter. *)
Lemma letters_checked :
  forallb (fun k => let c := 65 + N.of_nat k in (c =? 76) || (ascii_lower (confusable c) =? ascii_lower (confusable (c + 32)))) (seq 0 26) = true.
Proof. vm_compute. reflexivity. Qed.
Lemma confusable_case a b : same_letter a b -> ascii_lower (confusable a) = ascii_lower (confusable b).
Proof.
  assert (Hc : forall c, 65 <= c <= 90 -> c <> 76 -> ascii_lower (confusable c) = ascii_lower (confusable (c + 32))).
  { intros c H1 H2.
    assert (Hin : In (N.to_nat (c - 65)) (seq 0 26)) by (apply in_seq; lia).
    assert (Hc : 65 + N.of_nat (N.to_nat (c - 65)) = c) by lia. assert (H76 : (c =? 76) = false) by lia.
    pose proof (proj1 (forallb_forall _ _) letters_checked _ Hin) as H. cbv beta zeta in H. rewrite Hc, H76, orb_false_l in H.
    by apply N.eqb_eq in H. }
  intros [->|(Ha & Hb & He & Hl)]; [done|]. unfold letter in *. unfold ascii_lower in He, Hl.
  destruct ((65 <=? a) && (a <=? 90)) eqn:Ea, ((65 <=? b) && (b <=? 90)) eqn:Eb.
  - replace b with a by lia. done.
  - replace b with (a + 32) by lia. apply Hc; lia.
  - replace a with (b + 32) by lia. symmetry. apply Hc; lia.
  - by subst b.
Qed.

Lemma runtime_form_case un verify s t : letters_plain un -> Forall2 same_letter s t ->
  form (runtime_handles un verify) s = form (runtime_handles un verify) t.
Proof.
  intros Hu H. unfold form. change (h_confusable (runtime_handles un verify)) with confusable. change (h_unicode (runtime_handles un verify)) with un.
  apply form_same; [exact Hu|exact confusable_case|exact H].
Qed.

Lemma form_blank cfg a b c : is_whitespace c = true -> form cfg (a ++ c :: b) = form cfg (a ++ b).
Proof.
  intros H. unfold form, convert_to_canonical. do 3 f_equal. unfold strip_unicode_whitespace.
  rewrite !List.filter_app. cbn. by rewrite H.
Qed.

(** The letter L. *)
Lemma letter_l : ascii_lower (confusable 76) = 108 /\ ascii_lower (confusable 108) = 49.
Proof. vm_compute. done. Qed.
Lemma form_ascii_blank cfg a b c : c = 32 \/ 9 <= c <= 13 -> form cfg (a ++ c :: b) = form cfg (a ++ b).
Proof. intros H. apply form_blank. unfold is_whitespace. rewrite !orb_true_iff, !andb_true_iff. lia. Qed.
