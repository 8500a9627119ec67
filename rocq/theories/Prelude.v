(** Shared vocabulary: results, bounded machine integers, finite maps. *)
From stdpp Require Export base numbers list gmap fin_maps fin_map_dom sorting.
From Coq Require Export NArith ZArith Lia.
From Coq Require Export ZifyBool ZifyNat ZifyN.

Global Open Scope N_scope.

Global Arguments N.add : simpl never.
Global Arguments N.sub : simpl never.
Global Arguments N.mul : simpl never.
Global Arguments N.div : simpl never.
Global Arguments N.modulo : simpl never.
Global Arguments N.min : simpl never.
Global Arguments N.max : simpl never.
Global Arguments N.eqb : simpl never.
Global Arguments N.ltb : simpl never.
Global Arguments N.leb : simpl never.
Global Arguments N.of_nat : simpl never.
Global Arguments N.to_nat : simpl never.

(** Result of a fallible Rust function: [Ok] or an error value. *)
Inductive res (E A : Type) : Type :=
| Ok (a : A)
| Err (e : E).
Arguments Ok {E A} a.
Arguments Err {E A} e.

Definition is_ok {E A} (r : res E A) : bool :=
  match r with Ok _ => true | Err _ => false end.

(** The [?] operator. *)
Notation "'let!' x ':=' m 'in' k" :=
  (match m with Ok x => k | Err e => Err e end)
    (at level 200, x pattern, m at level 100, k at level 200, right associativity).

(** [ensure!(b, e); k] *)
Notation "'ensure!' b 'else' e 'in' k" :=
  (if b then k else Err e)
    (at level 200, b at level 100, e at level 100, k at level 200, right associativity).

(** Machine integer maxima. *)
Definition u8_max : N := 255.
Definition u16_max : N := 65535.
Definition u32_max : N := 4294967295.
Definition u64_max : N := 18446744073709551615.
Definition u128_max : N := 340282366920938463463374607431768211455.

(** [saturating_add] at a type whose maximum is [mx]. *)
Definition sat_add (mx a b : N) : N := N.min mx (a + b).
(** [saturating_mul] at a type whose maximum is [mx]. *)
Definition sat_mul (mx a b : N) : N := N.min mx (a * b).
(** [checked_add] at a type whose maximum is [mx]. *)
Definition chk_add (mx a b : N) : option N :=
  if a + b <=? mx then Some (a + b) else None.
Definition chk_mul (mx a b : N) : option N :=
  if a * b <=? mx then Some (a * b) else None.
Definition chk_sub (a b : N) : option N :=
  if b <=? a then Some (a - b) else None.
(** wrapping addition (release builds do not check overflow) *)
Definition wrap_add (mx a b : N) : N := (a + b) mod (mx + 1).

Definition len {A} (l : list A) : N := N.of_nat (length l).

Lemma len_nil A : len (@nil A) = 0. Proof. reflexivity. Qed.
Lemma len_cons A (x : A) l : len (x :: l) = len l + 1.
Proof. unfold len; cbn; lia. Qed.
Lemma len_app A (l k : list A) : len (l ++ k) = len l + len k.
Proof. unfold len; rewrite app_length; lia. Qed.

(** Destructing the model's straight-line code. *)
Ltac inv_ok :=
  repeat match goal with
  | H : Err _ = Ok _ |- _ => discriminate H
  | H : Ok _ = Err _ |- _ => discriminate H
  | H : Some _ = None |- _ => discriminate H
  | H : None = Some _ |- _ => discriminate H
  | H : Ok _ = Ok _ |- _ => injection H as H; subst
  | H : Err _ = Err _ |- _ => injection H as H; subst
  end.

Ltac split_matches H :=
  repeat (match type of H with
  | context [match ?x with _ => _ end] => let E := fresh "E" in destruct x eqn:E
  end; try discriminate H; inv_ok).

(** The same, destructing the innermost scrutinee first. *)
Ltac innermost x :=
  match x with
  | context [match ?y with _ => _ end] => innermost y
  | _ => x
  end.

Ltac split_all H :=
  repeat (match type of H with
  | context [match ?x with _ => _ end] =>
      let y := innermost x in let E := fresh "E" in destruct y eqn:E
  end; try discriminate H; inv_ok).
