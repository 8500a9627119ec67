(** Property C107: which base handles share a series of suffixes. *)
From Verif Require Import Prelude Utf8 HConfusables HModel HSpec HFormProofs HProperties.

(** In the runtime, whatever the Unicode tables say of other characters, bases
    that differ only in the case of ASCII letters other than L have the same
    canonical form; by C51 and C52 they share their suffixes, so no two of their
    handles read alike. *)
Theorem C107_case_partial :
  forall un verify s t, letters_plain un -> Forall2 same_letter s t ->
  form (runtime_handles un verify) s = form (runtime_handles un verify) t.
Proof. exact runtime_form_case. Qed.
Print Assumptions C107_case_partial.
Example C107_case_example : letters_plain toy_un /\ Forall2 same_letter [70; 111; 95; 79] [102; 79; 95; 79].
Proof.
  split; [done|]. constructor; [right; unfold letter; vm_compute; intuition discriminate|].
  constructor; [right; unfold letter; vm_compute; intuition discriminate|]. constructor; [by left|]. constructor; [by left|constructor].
Qed.

(** A canonical form has no capital letter, and blanks do not count. *)
Theorem C107_no_capitals : forall cfg s, Forall (fun c => ~ (65 <= c <= 90)) (form cfg s).
Proof. exact form_no_capitals. Qed.
Print Assumptions C107_no_capitals.
Theorem C107_blanks : forall cfg a b c, c = 32 \/ 9 <= c <= 13 -> form cfg (a ++ c :: b) = form cfg (a ++ b).
Proof. exact form_ascii_blank. Qed.
Print Assumptions C107_blanks.

(** The letter L is an exception: small l counts as the digit 1, capital L as the
    letter l. So "Lena" and "lena" have series of their own, and in the runtime
    two MSAs can hold Lena.30 and lena.30. *)
Definition lena : list N := [108; 101; 110; 97].
Definition Lena : list N := [76; 101; 110; 97].
Definition lena_run : HState :=
  h_run rt h_genesis ([claim_at 1 1 Lena 50; claim_at 1 2 Lena 50; claim_at 1 3 Lena 50] ++
    [claim_at 1 4 lena 50; claim_at 1 5 lena 50; claim_at 1 6 lena 50; claim_at 1 7 lena 50; claim_at 1 8 lena 50]).
Definition shown (x : HState) (m : N) : option (list N) :=
  option_map (fun r => display (hr_base r) (hr_suffix r)) (get_handle_for_msa rt x m).
Theorem C107_letter_l_refuted :
  map ascii_lower Lena = map ascii_lower lena
  /\ (let x := lena_run in (shown x 3, shown x 8)) = (Some (display Lena 30), Some (display lena 30)).
Proof. split; [reflexivity|]. vm_compute. reflexivity. Qed.
Print Assumptions C107_letter_l_refuted.
