(** Proofs for the models of schemas: the parser accepts exactly the texts of the
    grammar. *)
From Coq Require Import String Ascii.
From Verif Require Import Prelude Utf8 Utf8Proofs JsModel JsSpec.

(** ** White space, digits *)
Lemma ws_iff c : is_ws c = true <-> c ∈ [32; 9; 10; 13].
Proof. unfold is_ws. rewrite !elem_of_cons, elem_of_nil. lia. Qed.
Lemma skip_spec s : exists w, blank w /\ s = w ++ skip_ws s.
Proof.
  induction s as [|c r (w & Hw & E)]; [exists []; split; [constructor|done]|]. cbn. destruct (is_ws c) eqn:Ec; [|exists []; split; [constructor|done]].
  exists (c :: w). split; [constructor; [by apply ws_iff|done]|]. cbn. by rewrite <- E.
Qed.
Lemma skip_app w s : blank w -> skip_ws (w ++ s) = skip_ws s.
Proof. induction 1 as [|c w Hc Hw IH]; [done|]. cbn. apply ws_iff in Hc. by rewrite Hc. Qed.
Lemma skip_stop c s : is_ws c = false -> skip_ws (c :: s) = c :: s.
Proof. intros H. cbn. by rewrite H. Qed.
Lemma skip_blank w : blank w -> skip_ws w = [].
Proof. intros H. rewrite <- (app_nil_r w), skip_app; done. Qed.
Lemma next_iff c s r : next c s = Some r <-> s = c :: r.
Proof.
  destruct s as [|x s]; cbn; [split; discriminate|]. destruct (N.eqb_spec x c) as [->|Hn].
  - split; [intros H; apply (inj Some) in H as ->; done|intros [= ->]; done].
  - split; [discriminate|intros [= -> _]; done].
Qed.
Lemma next_other c x s : x <> c -> next c (x :: s) = None.
Proof. intros H. cbn. destruct (N.eqb_spec x c); [done|done]. Qed.

Lemma digit_iff c : is_digit c = true <-> digit c.
Proof. unfold is_digit, digit, chars. cbn. rewrite !elem_of_cons, elem_of_nil. lia. Qed.
Lemma hex_iff c : is_hex c = true <-> hexdigit c.
Proof.
  unfold is_hex, hex_value, hexdigit, chars. cbn -[N.leb]. rewrite !elem_of_cons, elem_of_nil.
  repeat case_match; split; intros; try done; lia.
Qed.
Lemma escape_iff e : (exists x, escape e = Some x) <-> e ∈ 34 :: 92 :: chars "/bfnrt".
Proof.
  unfold escape, chars. cbn -[N.eqb]. rewrite !elem_of_cons, elem_of_nil.
  split; [intros [x H]|intros H]; repeat case_match; try lia; try done; by eexists.
Qed.

(** ** Strings *)
Lemma scan_str_sound n : forall s b t, (length s <= n)%nat -> scan_str s = Some (b, t) -> string_body b /\ s = b ++ 34 :: t.
Proof.
  induction n as [|n IH]; intros [|c r] b t Hl H; cbn [length] in Hl; try discriminate; [lia|].
  cbn in H. destruct (N.eqb_spec c 34) as [->|H34]; [apply (inj Some) in H as [= <- <-]; split; [constructor|done]|].
  destruct (N.eqb_spec c 92) as [->|H92].
  - destruct r as [|e r1]; [discriminate|]. cbn [length] in Hl. destruct (N.eqb_spec e 117) as [->|Hu].
    + destruct r1 as [|h1 [|h2 [|h3 [|h4 r']]]]; try discriminate. cbn [length] in Hl.
      destruct (_ && _) eqn:Eh in H; [|discriminate]. destruct (scan_str r') as [[b' t']|] eqn:E; [|discriminate].
      apply (inj Some) in H as [= <- <-]. apply IH in E as [Hb ->]; [|lia].
      rewrite !andb_true_iff, !hex_iff in Eh. destruct Eh as [[[? ?] ?] ?]. split; [by constructor|done].
    + destruct (escape e) as [x|] eqn:Ee; [|discriminate]. destruct (scan_str r1) as [[b' t']|] eqn:E; [|discriminate].
      apply (inj Some) in H as [= <- <-]. apply IH in E as [Hb ->]; [|lia]. split; [|done]. constructor; [apply escape_iff; by exists x|done].
  - destruct (N.ltb_spec c 32); [discriminate|]. destruct (scan_str r) as [[b' t']|] eqn:E; [|discriminate].
    apply (inj Some) in H as [= <- <-]. apply IH in E as [Hb ->]; [|lia]. split; [by constructor|done].
Qed.
Lemma scan_str_complete b t : string_body b -> scan_str (b ++ 34 :: t) = Some (b, t).
Proof.
  induction 1 as [|c b Hc H34 H92 Hb IH|e b He Hb IH|h1 h2 h3 h4 b H1 H2 H3 H4 Hb IH]; cbn.
  - done.
  - destruct (N.eqb_spec c 34); [done|]. destruct (N.eqb_spec c 92); [done|]. destruct (N.ltb_spec c 32); [lia|]. by rewrite IH.
  - change (92 =? 34) with false. change (92 =? 92) with true. cbn.
    apply escape_iff in He as [x Hx]. destruct (N.eqb_spec e 117) as [->|_]; [discriminate|]. by rewrite Hx, IH.
  - change (92 =? 34) with false. change (92 =? 92) with true. change (117 =? 117) with true. cbn.
    apply hex_iff in H1, H2, H3, H4. rewrite H1, H2, H3, H4. cbn. by rewrite IH.
Qed.

(** ** Numbers *)
Definition not_digit (t : list N) : Prop := match t with c :: _ => is_digit c = false | [] => True end.
Lemma scan_digits_spec s : let '(d, t) := scan_digits s in Forall digit d /\ s = d ++ t /\ not_digit t.
Proof.
  induction s as [|c r IH]; [done|]. cbn. destruct (is_digit c) eqn:Ec.
  - destruct (scan_digits r) as [d t]. destruct IH as (Hd & -> & Ht). split; [constructor; [by apply digit_iff|done]|done].
  - split; [constructor|]. done.
Qed.
Lemma scan_digits_app d t : Forall digit d -> not_digit t -> scan_digits (d ++ t) = (d, t).
Proof.
  intros Hd Ht. induction Hd as [|c d Hc Hd IH]; cbn.
  - destruct t as [|c t]; [done|]. cbn in Ht |- *. by rewrite Ht.
  - apply digit_iff in Hc. rewrite Hc. by rewrite IH.
Qed.
Definition stops (t : list N) : Prop := match t with c :: _ => is_digit c = false /\ c <> 46 /\ c <> 101 /\ c <> 69 | [] => True end.

Definition int_text (i : list N) : Prop := i = chars "0" \/ exists d ds, i = d :: ds /\ digit d /\ d <> 48 /\ Forall digit ds.
Definition frac_text (f : list N) : Prop := f = [] \/ exists ds, f = chars "." ++ ds /\ ds <> [] /\ Forall digit ds.
Definition exp_text (x : list N) : Prop :=
  x = [] \/ exists e s ds, x = e ++ s ++ ds /\ e ∈ [chars "e"; chars "E"] /\ s ∈ [[]; chars "+"; chars "-"] /\ ds <> [] /\ Forall digit ds.
Lemma scan_int_sound s i t : scan_int s = Some (i, t) -> int_text i /\ s = i ++ t.
Proof.
  destruct s as [|c r]; [discriminate|]. unfold scan_int. destruct (N.eqb_spec c 48) as [->|H48].
  - destruct r as [|d r']; [intros H; apply (inj Some) in H as [= <- <-]; split; [by left|done]|].
    destruct (is_digit d); [discriminate|]. intros H; apply (inj Some) in H as [= <- <-]. split; [by left|done].
  - destruct (is_digit c) eqn:Ec; [|discriminate]. cbn [scan_digits]. rewrite Ec. pose proof (scan_digits_spec r) as Hs.
    destruct (scan_digits r) as [d u]. destruct Hs as (Hd & -> & _). intros H; apply (inj Some) in H as [= <- <-].
    split; [|done]. right. exists c, d. split; [done|]. split; [by apply digit_iff|done].
Qed.
Lemma scan_int_complete i t : int_text i -> not_digit t -> scan_int (i ++ t) = Some (i, t).
Proof.
  intros [->|(d & ds & -> & Hd & H48 & Hds)] Ht.
  - cbn. change (48 =? 48) with true. cbn. destruct t as [|c t]; [done|]. cbn in Ht. by rewrite Ht.
  - cbn [app]. unfold scan_int. destruct (N.eqb_spec d 48); [done|]. pose proof (proj2 (digit_iff d) Hd) as E. rewrite E.
    cbn [scan_digits]. rewrite E, scan_digits_app by done. done.
Qed.
Lemma scan_frac_sound s f t : scan_frac s = Some (f, t) -> frac_text f /\ s = f ++ t.
Proof.
  destruct s as [|c r]; [intros H; apply (inj Some) in H as [= <- <-]; split; [by left|done]|].
  unfold scan_frac. destruct (N.eqb_spec c 46) as [->|Hc].
  - pose proof (scan_digits_spec r) as Hs. destruct (scan_digits r) as [d u]. destruct Hs as (Hd & -> & _).
    destruct d as [|x d]; [discriminate|]. intros H; apply (inj Some) in H as [= <- <-]. split; [|done]. right. by exists (x :: d).
  - intros H; apply (inj Some) in H as [= <- <-]. split; [by left|done].
Qed.
Lemma scan_frac_complete f t : frac_text f -> not_digit t -> (f = [] -> forall c r, t = c :: r -> c <> 46) -> scan_frac (f ++ t) = Some (f, t).
Proof.
  intros [->|(ds & -> & Hn & Hd)] Ht Hc.
  - cbn [app]. destruct t as [|c t]; [done|]. unfold scan_frac. destruct (N.eqb_spec c 46) as [->|]; [by edestruct (Hc eq_refl)|done].
  - cbn. change (46 =? 46) with true. cbn. rewrite scan_digits_app by done. by destruct ds.
Qed.
Lemma scan_exp_sound s x t : scan_exp s = Some (x, t) -> exp_text x /\ s = x ++ t.
Proof.
  destruct s as [|e r]; [intros H; apply (inj Some) in H as [= <- <-]; split; [by left|done]|].
  unfold scan_exp. destruct ((e =? 101) || (e =? 69)) eqn:He.
  - assert (Hp : exists s0 r', match r with c :: r' => if (c =? 43) || (c =? 45) then ([c], r') else ([], r) | [] => ([], r) end = (s0, r')
       /\ s0 ∈ [[]; chars "+"; chars "-"] /\ r = s0 ++ r').
    { destruct r as [|c r']; [exists [], []; split; [done|]; split; [left|done]|]. destruct ((c =? 43) || (c =? 45)) eqn:Ec.
      - exists [c], r'. split; [done|]. split; [|done]. assert (c = 43 \/ c = 45) as [-> | ->] by lia; [right; left|right; right; left].
      - exists [], (c :: r'). split; [done|]. split; [left|done]. }
    destruct Hp as (s0 & r' & -> & Hs & ->). pose proof (scan_digits_spec r') as Hd. destruct (scan_digits r') as [d u]. destruct Hd as (Hd & -> & _).
    destruct d as [|y d]; [discriminate|]. intros H; apply (inj Some) in H as [= <- <-]. split.
    + right. exists [e], s0, (y :: d). split; [done|]. split; [|done]. assert (e = 101 \/ e = 69) as [-> | ->] by lia; [left|right; left].
    + cbn. by rewrite <- app_assoc.
  - intros H; apply (inj Some) in H as [= <- <-]. split; [by left|done].
Qed.
Lemma scan_exp_complete x t : exp_text x -> stops t -> scan_exp (x ++ t) = Some (x, t).
Proof.
  intros [->|(e & s & ds & -> & He & Hs & Hn & Hd)] Ht.
  - cbn [app]. destruct t as [|c t]; [done|]. unfold scan_exp. destruct Ht as (_ & _ & H1 & H2).
    destruct (N.eqb_spec c 101); [done|]. destruct (N.eqb_spec c 69); done.
  - assert (Hnd : not_digit t) by (destruct t; [done|apply Ht]).
    assert (exists y, e = [y] /\ (y =? 101) || (y =? 69) = true) as (y & -> & Hy).
    { rewrite !elem_of_cons, elem_of_nil in He. destruct He as [-> | [-> | []]]; eexists; (split; [reflexivity|reflexivity]). }
    cbn [app]. unfold scan_exp. rewrite Hy. rewrite <- app_assoc.
    assert (E : match s ++ ds ++ t with c :: r' => if (c =? 43) || (c =? 45) then ([c], r') else ([], s ++ ds ++ t) | [] => ([], s ++ ds ++ t) end = (s, ds ++ t)).
    { rewrite !elem_of_cons, elem_of_nil in Hs. destruct Hs as [-> | [-> | [-> | []]]]; [|done|done].
      destruct ds as [|d ds]; [done|]. cbn. inversion Hd as [|? ? H0 _]; subst. apply digit_iff in H0. unfold is_digit in H0.
      destruct ((d =? 43) || (d =? 45)) eqn:E; [lia|done]. }
    rewrite E, scan_digits_app by done. by destruct ds.
Qed.
Lemma scan_num_sound s n t : scan_num s = Some (n, t) -> number_text n /\ s = n ++ t.
Proof.
  unfold scan_num. intros H.
  assert (Hp : exists sg s0, match s with c :: r => if c =? 45 then ([45], r) else ([], s) | [] => ([], s) end = (sg, s0)
     /\ (sg = [] \/ sg = chars "-") /\ s = sg ++ s0).
  { destruct s as [|c r]; [exists [], []; split; [done|]; split; [by left|done]|]. destruct (N.eqb_spec c 45) as [->|].
    - exists [45], r. split; [done|]. split; [by right|done].
    - exists [], (c :: r). split; [done|]. split; [by left|done]. }
  destruct Hp as (sg & s0 & E & Hsg & ->). rewrite E in H. clear E.
  destruct (scan_int s0) as [[i s1]|] eqn:Ei; [|discriminate]. apply scan_int_sound in Ei as [Hi ->].
  destruct (scan_frac s1) as [[f s2]|] eqn:Ef; [|discriminate]. apply scan_frac_sound in Ef as [Hf ->].
  destruct (scan_exp s2) as [[x s3]|] eqn:Ex; [|discriminate]. apply scan_exp_sound in Ex as [Hx ->].
  apply (inj Some) in H as [= <- <-]. split; [by exists sg, i, f, x|]. by rewrite <- !app_assoc.
Qed.
Lemma exp_head x t : exp_text x -> stops t -> not_digit (x ++ t) /\ forall c r, x ++ t = c :: r -> c <> 46.
Proof.
  intros [->|(e & s & ds & -> & He & _)] Ht.
  - cbn. destruct t as [|c t]; [done|]. split; [apply Ht|]. intros ? ? [= <- _]. apply Ht.
  - rewrite !elem_of_cons, elem_of_nil in He. destruct He as [-> | [-> | []]]; cbn; (split; [done|]); intros ? ? [= <- _]; done.
Qed.
Lemma scan_num_complete n t : number_text n -> stops t -> scan_num (n ++ t) = Some (n, t).
Proof.
  intros (sg & i & f & x & -> & Hsg & Hi & Hf & Hx) Ht. unfold scan_num. rewrite <- !app_assoc.
  assert (E : match sg ++ i ++ f ++ x ++ t with c :: r => if c =? 45 then ([45], r) else ([], sg ++ i ++ f ++ x ++ t) | [] => ([], sg ++ i ++ f ++ x ++ t) end = (sg, i ++ f ++ x ++ t)).
  { destruct Hsg as [-> | ->]; [|done]. cbn [app]. destruct Hi as [->|(d & ds & -> & Hd & _)]; [done|]. cbn. apply digit_iff in Hd. unfold is_digit in Hd.
    destruct (N.eqb_spec d 45); [lia|done]. }
  rewrite E. destruct (exp_head x t Hx Ht) as [Hnd H46].
  rewrite scan_int_complete; [|exact Hi|].
  2: { destruct Hf as [->|(ds & -> & _)]; [done|done]. }
  rewrite scan_frac_complete; [|exact Hf|done|intros _; exact H46].
  by rewrite scan_exp_complete.
Qed.

(** ** Values *)
Lemma strip_iff p s t : strip p s = Some t <-> s = p ++ t.
Proof.
  revert s. induction p as [|a p IH]; intros s; cbn.
  - split; [intros H; by apply (inj Some) in H|by intros ->].
  - destruct s as [|b s]; [split; discriminate|]. destruct (N.eqb_spec a b) as [->|Hn].
    + rewrite IH. split; [by intros ->|by intros [= ->]].
    + split; [discriminate|intros [= -> _]; done].
Qed.
Lemma p_sound f :
  (forall s v t, p_value f s = Some (v, t) -> exists b, value_text b v /\ s = b ++ t)
  /\ (forall s l t, p_elements f s = Some (l, t) -> exists b, elements_text b l /\ s = b ++ 93 :: t)
  /\ (forall s l t, p_members f s = Some (l, t) -> exists b, members_text b l /\ s = b ++ 125 :: t).
Proof.
  induction f as [|f (IHv & IHe & IHm)]; [split; [|split]; intros; discriminate|]. split; [|split].
  - intros [|c r] v t H; [discriminate|]. cbn [p_value] in H.
    destruct (N.eqb_spec c 110) as [->|_].
    { destruct (strip _ r) as [u|] eqn:E; [|discriminate]. apply (inj Some) in H as [= <- <-]. apply strip_iff in E as ->. exists (chars "null"). split; [constructor|done]. }
    destruct (N.eqb_spec c 116) as [->|_].
    { destruct (strip _ r) as [u|] eqn:E; [|discriminate]. apply (inj Some) in H as [= <- <-]. apply strip_iff in E as ->. exists (chars "true"). split; [constructor|done]. }
    destruct (N.eqb_spec c 102) as [->|_].
    { destruct (strip _ r) as [u|] eqn:E; [|discriminate]. apply (inj Some) in H as [= <- <-]. apply strip_iff in E as ->. exists (chars "false"). split; [constructor|done]. }
    destruct (N.eqb_spec c 34) as [->|_].
    { destruct (scan_str r) as [[b u]|] eqn:E; [|discriminate]. apply (inj Some) in H as [= <- <-]. apply (scan_str_sound (length r)) in E as [Hb ->]; [|lia].
      exists (34 :: b ++ [34]). split; [by constructor|]. cbn. by rewrite <- app_assoc. }
    destruct (N.eqb_spec c 91) as [->|_].
    { destruct (next 93 _) as [u|] eqn:E.
      - apply (inj Some) in H as [= <- <-]. apply next_iff in E. destruct (skip_spec r) as (w & Hw & Er).
        exists (chars "[" ++ w ++ chars "]"). split; [by constructor|]. change (91 :: r = 91 :: (w ++ [93]) ++ u). rewrite <- app_assoc. cbn [app]. rewrite <- E. by rewrite <- Er.
      - destruct (p_elements f r) as [[l u]|] eqn:Ee; [|discriminate]. apply (inj Some) in H as [= <- <-]. apply IHe in Ee as (b & Hb & ->).
        exists (chars "[" ++ b ++ chars "]"). split; [by constructor|]. cbn. by rewrite <- app_assoc. }
    destruct (N.eqb_spec c 123) as [->|_].
    { destruct (next 125 _) as [u|] eqn:E.
      - apply (inj Some) in H as [= <- <-]. apply next_iff in E. destruct (skip_spec r) as (w & Hw & Er). 
        exists (chars "{" ++ w ++ chars "}"). split; [by constructor|]. change (123 :: r = 123 :: (w ++ [125]) ++ u). rewrite <- app_assoc. cbn [app]. rewrite <- E. by rewrite <- Er.
      - destruct (p_members f r) as [[l u]|] eqn:Ee; [|discriminate]. apply (inj Some) in H as [= <- <-]. apply IHm in Ee as (b & Hb & ->).
        exists (chars "{" ++ b ++ chars "}"). split; [by constructor|]. cbn. by rewrite <- app_assoc. }
    destruct (scan_num (c :: r)) as [[n u]|] eqn:E; [|discriminate]. apply (inj Some) in H as [= <- <-]. apply scan_num_sound in E as [Hn ->].
    exists n. split; [by constructor|done].
  - intros s l t H. cbn [p_elements] in H. destruct (p_value f (skip_ws s)) as [[v u]|] eqn:Ev; [|discriminate]. apply IHv in Ev as (b & Hb & Es).
    destruct (skip_spec s) as (w1 & Hw1 & E1). destruct (skip_spec u) as (w2 & Hw2 & E2).
    destruct (next 44 _) as [t'|] eqn:E44.
    + apply next_iff in E44. destruct (p_elements f t') as [[l' u']|] eqn:Ee; [|discriminate]. apply (inj Some) in H as [= <- <-].
      apply IHe in Ee as (b' & Hb' & ->). exists (w1 ++ b ++ w2 ++ chars "," ++ b'). split; [by constructor|].
      rewrite E1, Es, E2, E44. rewrite <- !app_assoc. done.
    + destruct (next 93 _) as [t'|] eqn:E93; [|discriminate]. apply next_iff in E93. apply (inj Some) in H as [= <- <-].
      exists (w1 ++ b ++ w2). split; [by constructor|]. rewrite E1, Es, E2, E93. by rewrite <- !app_assoc.
  - intros s l t H. cbn [p_members] in H. destruct (next 34 _) as [r|] eqn:E34; [|discriminate]. apply next_iff in E34.
    destruct (scan_str r) as [[k u]|] eqn:Ek; [|discriminate]. apply (scan_str_sound (length r)) in Ek as [Hk ->]; [|lia].
    destruct (next 58 _) as [x|] eqn:E58; [|discriminate]. apply next_iff in E58.
    destruct (p_value f (skip_ws x)) as [[v y]|] eqn:Ev; [|discriminate]. apply IHv in Ev as (b & Hb & Ex).
    destruct (skip_spec s) as (w1 & Hw1 & E1). destruct (skip_spec u) as (w2 & Hw2 & E2). destruct (skip_spec x) as (w3 & Hw3 & E3). destruct (skip_spec y) as (w4 & Hw4 & E4).
    destruct (next 44 _) as [t'|] eqn:E44.
    + apply next_iff in E44. destruct (p_members f t') as [[l' u']|] eqn:Ee; [|discriminate]. apply (inj Some) in H as [= <- <-].
      apply IHm in Ee as (b' & Hb' & ->). exists (w1 ++ (34 :: k ++ [34]) ++ w2 ++ chars ":" ++ w3 ++ b ++ w4 ++ chars "," ++ b'). split; [by constructor|].
      rewrite E1, E34, E2, E58, E3, Ex, E4, E44. repeat (rewrite <- app_assoc; cbn). done.
    + destruct (next 125 _) as [t'|] eqn:E93; [|discriminate]. apply next_iff in E93. apply (inj Some) in H as [= <- <-].
      exists (w1 ++ (34 :: k ++ [34]) ++ w2 ++ chars ":" ++ w3 ++ b ++ w4). split; [by constructor|].
      rewrite E1, E34, E2, E58, E3, Ex, E4, E93. repeat (rewrite <- app_assoc; cbn). done.
Qed.

Scheme value_ind2 := Minimality for value_text Sort Prop
  with elements_ind2 := Minimality for elements_text Sort Prop
  with members_ind2 := Minimality for members_text Sort Prop.
Combined Scheme text_ind from value_ind2, elements_ind2, members_ind2.

(** What begins a value *)
Definition opens (c : N) : Prop := digit c \/ c ∈ [34; 45; 91; 102; 110; 116; 123].
Lemma opens_not c : opens c -> is_ws c = false /\ c <> 93 /\ c <> 125 /\ c <> 44 /\ c <> 58.
Proof. unfold opens, digit, is_ws, chars. cbn. rewrite !elem_of_cons, elem_of_nil. lia. Qed.
Lemma number_head n : number_text n -> exists c r, n = c :: r /\ (digit c \/ c = 45).
Proof.
  intros (sg & i & f & x & -> & Hsg & Hi & _). assert (exists c r, i = c :: r /\ digit c) as (c & r & -> & Hc).
  { destruct Hi as [->|(d & ds & -> & Hd & _)]; [|by exists d, ds]. exists 48, []. split; [done|left]. }
  destruct Hsg as [-> | ->]; cbn; eexists _, _; (split; [reflexivity|]); [by left|by right].
Qed.
Lemma value_head s v : value_text s v -> exists c r, s = c :: r /\ opens c.
Proof.
  assert (Hin : forall c, c ∈ [34; 45; 91; 102; 110; 116; 123] -> opens c) by (intros c H; by right).
  intros H. destruct H as [ | | |n Hn|b Hb|w Hw|s l Hs|w Hw|s l Hs]; try (eexists _, _; split; [reflexivity|apply Hin; set_solver]).
  apply number_head in Hn as (c & r & -> & [Hc | ->]); eexists _, _; (split; [reflexivity|]); [by left|apply Hin; set_solver].
Qed.
Lemma elements_head s l : elements_text s l -> exists w c r, blank w /\ s = w ++ c :: r /\ opens c.
Proof.
  intros H. destruct H as [w1 s v w2 H1 H2 H3|w1 s v w2 s' l H1 H2 H3 H4]; apply value_head in H2 as (c & r & -> & Hc); exists w1, c; eexists; (split; [done|]); (split; [reflexivity|done]).
Qed.
Lemma members_head s l : members_text s l -> exists w r, blank w /\ s = w ++ 34 :: r.
Proof. intros H. destruct H as [w1 ? ? ? ? ? ? H1|w1 ? ? ? ? ? ? ? ? H1]; exists w1; eexists; (split; [done|reflexivity]). Qed.
Lemma blank_stops w c t : blank w -> c ∈ [44; 93; 125] -> stops (w ++ c :: t).
Proof.
  intros Hw Hc. destruct w as [|x w]; cbn.
  - rewrite !elem_of_cons, elem_of_nil in Hc. unfold is_digit. lia.
  - inversion Hw as [|? ? Hx _]; subst. rewrite !elem_of_cons, elem_of_nil in Hx. unfold is_digit. lia.
Qed.
Lemma blank_end w : blank w -> stops w.
Proof.
  intros Hw. destruct w as [|x w]; cbn; [done|]. inversion Hw as [|? ? Hx _]; subst. rewrite !elem_of_cons, elem_of_nil in Hx. unfold is_digit. lia.
Qed.

Lemma p_complete :
  (forall s v, value_text s v -> forall f t, (2 * length s + 1 <= f)%nat -> stops t -> p_value f (s ++ t) = Some (v, t))
  /\ (forall s l, elements_text s l -> forall f t, (2 * length s + 2 <= f)%nat -> p_elements f (s ++ 93 :: t) = Some (l, t))
  /\ (forall s l, members_text s l -> forall f t, (2 * length s + 2 <= f)%nat -> p_members f (s ++ 125 :: t) = Some (l, t)).
Proof.
  apply text_ind.
  - intros [|f] t Hf _; [cbn in Hf; lia|]. done.
  - intros [|f] t Hf _; [cbn in Hf; lia|]. done.
  - intros [|f] t Hf _; [cbn in Hf; lia|]. done.
  - intros n Hn [|f] t Hf Ht; [lia|]. destruct (number_head n Hn) as (c & r & E & Hc). pose proof (scan_num_complete n t Hn Ht) as Hs.
    rewrite E in Hs |- *. cbn [app] in Hs |- *. cbn [p_value]. rewrite Hs.
    assert (c = 45 \/ 48 <= c <= 57) as Hr. { destruct Hc as [Hc | ->]; [|by left]. right. apply digit_iff in Hc. unfold is_digit in Hc. lia. }
    destruct (N.eqb_spec c 110); [lia|]. destruct (N.eqb_spec c 116); [lia|]. destruct (N.eqb_spec c 102); [lia|]. destruct (N.eqb_spec c 34); [lia|].
    destruct (N.eqb_spec c 91); [lia|]. destruct (N.eqb_spec c 123); [lia|]. done.
  - intros b Hb [|f] t Hf Ht; [cbn in Hf; lia|]. cbn [app p_value]. change (34 =? 110) with false. change (34 =? 116) with false. change (34 =? 102) with false. change (34 =? 34) with true.
    cbv iota. rewrite <- app_assoc. cbn [app]. by rewrite scan_str_complete.
  - intros w Hw [|f] t Hf Ht; [cbn in Hf; lia|]. change (p_value (S f) (91 :: (w ++ [93]) ++ t) = Some (JArr [], t)). rewrite <- app_assoc. cbn [app p_value].
    change (91 =? 110) with false. change (91 =? 116) with false. change (91 =? 102) with false. change (91 =? 34) with false. change (91 =? 91) with true. cbv iota.
    by rewrite skip_app, skip_stop.
  - intros s l Hs IH [|f] t Hf Ht; [cbn in Hf; lia|]. change (p_value (S f) (91 :: (s ++ [93]) ++ t) = Some (JArr l, t)). rewrite <- app_assoc. cbn [app p_value].
    change (91 =? 110) with false. change (91 =? 116) with false. change (91 =? 102) with false. change (91 =? 34) with false. change (91 =? 91) with true. cbv iota.
    change (chars "[" ++ s ++ chars "]") with (91 :: s ++ [93]) in Hf. cbn [length] in Hf. rewrite app_length in Hf. cbn [length] in Hf.
    rewrite IH by lia. destruct (elements_head s l Hs) as (w & c & r & Hw & -> & Hc). apply opens_not in Hc as (H1 & H2 & _).
    rewrite <- app_assoc, skip_app by done. cbn [app]. rewrite skip_stop by done. by rewrite next_other.
  - intros w Hw [|f] t Hf Ht; [cbn in Hf; lia|]. change (p_value (S f) (123 :: (w ++ [125]) ++ t) = Some (JObj [], t)). rewrite <- app_assoc. cbn [app p_value].
    change (123 =? 110) with false. change (123 =? 116) with false. change (123 =? 102) with false. change (123 =? 34) with false. change (123 =? 91) with false. change (123 =? 123) with true. cbv iota.
    by rewrite skip_app, skip_stop.
  - intros s l Hs IH [|f] t Hf Ht; [cbn in Hf; lia|]. change (p_value (S f) (123 :: (s ++ [125]) ++ t) = Some (JObj l, t)). rewrite <- app_assoc. cbn [app p_value].
    change (123 =? 110) with false. change (123 =? 116) with false. change (123 =? 102) with false. change (123 =? 34) with false. change (123 =? 91) with false. change (123 =? 123) with true. cbv iota.
    change (chars "{" ++ s ++ chars "}") with (123 :: s ++ [125]) in Hf. cbn [length] in Hf. rewrite app_length in Hf. cbn [length] in Hf.
    rewrite IH by lia. destruct (members_head s l Hs) as (w & r & Hw & ->).
    rewrite <- app_assoc, skip_app by done. cbn [app]. rewrite skip_stop by done. by rewrite next_other.
  - intros w1 s v w2 H1 Hs IH H2 [|f] t Hf; [lia|]. rewrite !app_length in Hf. cbn [p_elements]. rewrite <- !app_assoc, skip_app by done.
    destruct (value_head s v Hs) as (c & r & E & Hc). apply opens_not in Hc as (Hc & _).
    assert (skip_ws (s ++ w2 ++ 93 :: t) = s ++ w2 ++ 93 :: t) as -> by (rewrite E; cbn [app]; by apply skip_stop).
    rewrite IH; [|lia|by apply blank_stops; [|set_solver]]. rewrite skip_app, skip_stop by done. rewrite next_other by done. done.
  - intros w1 s v w2 s' l H1 Hs IH H2 Hs' IH' [|f] t Hf; [lia|]. rewrite !app_length in Hf. change (length (chars ",")) with 1%nat in Hf. cbn [p_elements].
    replace ((w1 ++ s ++ w2 ++ chars "," ++ s') ++ 93 :: t) with (w1 ++ s ++ w2 ++ 44 :: s' ++ 93 :: t) by (rewrite <- !app_assoc; done).
    rewrite skip_app by done. destruct (value_head s v Hs) as (c & r & E & Hc). apply opens_not in Hc as (Hc & _).
    assert (skip_ws (s ++ w2 ++ 44 :: s' ++ 93 :: t) = s ++ w2 ++ 44 :: s' ++ 93 :: t) as -> by (rewrite E; cbn [app]; by apply skip_stop).
    rewrite IH; [|lia|by apply blank_stops; [|set_solver]]. rewrite skip_app, skip_stop by done.
    rewrite (proj2 (next_iff 44 (44 :: s' ++ 93 :: t) _) eq_refl), IH' by lia. done.
  - intros w1 k w2 w3 s v w4 H1 Hk H2 H3 Hs IH H4 [|f] t Hf; [lia|]. cbn [p_members].
    replace ((w1 ++ (34 :: k ++ [34]) ++ w2 ++ chars ":" ++ w3 ++ s ++ w4) ++ 125 :: t) with (w1 ++ 34 :: k ++ 34 :: w2 ++ 58 :: w3 ++ s ++ w4 ++ 125 :: t)
      by (repeat (rewrite <- app_assoc; cbn); done).
    rewrite !app_length in Hf. cbn [length] in Hf. rewrite !app_length in Hf. change (length (chars ":")) with 1%nat in Hf. cbn [length] in Hf.
    rewrite skip_app, skip_stop by done. rewrite (proj2 (next_iff 34 (34 :: _) _) eq_refl). rewrite scan_str_complete by done.
    rewrite skip_app, skip_stop by done. rewrite (proj2 (next_iff 58 (58 :: _) _) eq_refl). rewrite skip_app by done.
    destruct (value_head s v Hs) as (c & r & E & Hc). apply opens_not in Hc as (Hc & _).
    assert (skip_ws (s ++ w4 ++ 125 :: t) = s ++ w4 ++ 125 :: t) as -> by (rewrite E; cbn [app]; by apply skip_stop).
    rewrite IH; [|lia|by apply blank_stops; [|set_solver]]. rewrite skip_app, skip_stop by done. rewrite next_other by done. done.
  - intros w1 k w2 w3 s v w4 s' l H1 Hk H2 H3 Hs IH H4 Hs' IH' [|f] t Hf; [lia|]. cbn [p_members].
    replace ((w1 ++ (34 :: k ++ [34]) ++ w2 ++ chars ":" ++ w3 ++ s ++ w4 ++ chars "," ++ s') ++ 125 :: t) with (w1 ++ 34 :: k ++ 34 :: w2 ++ 58 :: w3 ++ s ++ w4 ++ 44 :: s' ++ 125 :: t)
      by (repeat (rewrite <- app_assoc; cbn); done).
    rewrite !app_length in Hf. cbn [length] in Hf. rewrite !app_length in Hf. change (length (chars ":")) with 1%nat in Hf. change (length (chars ",")) with 1%nat in Hf. cbn [length] in Hf.
    rewrite skip_app, skip_stop by done. rewrite (proj2 (next_iff 34 (34 :: _) _) eq_refl). rewrite scan_str_complete by done.
    rewrite skip_app, skip_stop by done. rewrite (proj2 (next_iff 58 (58 :: _) _) eq_refl). rewrite skip_app by done.
    destruct (value_head s v Hs) as (c & r & E & Hc). apply opens_not in Hc as (Hc & _).
    assert (skip_ws (s ++ w4 ++ 44 :: s' ++ 125 :: t) = s ++ w4 ++ 44 :: s' ++ 125 :: t) as -> by (rewrite E; cbn [app]; by apply skip_stop).
    rewrite IH; [|lia|by apply blank_stops; [|set_solver]]. rewrite skip_app, skip_stop by done.
    rewrite (proj2 (next_iff 44 (44 :: s' ++ 125 :: t) _) eq_refl), IH' by lia. done.
Qed.

Lemma parse_iff m t : parse m = Some t <-> json_text m t.
Proof.
  unfold parse, json_text. split.
  - destruct (p_value _ _) as [[v u]|] eqn:E; [|discriminate]. intros H. destruct (skip_ws u) as [|] eqn:Eu; [|discriminate]. apply (inj Some) in H as ->.
    apply p_sound in E as (b & Hb & E). destruct (skip_spec m) as (w1 & H1 & Em). destruct (skip_spec u) as (w2 & H2 & E2). rewrite Eu, app_nil_r in E2. subst u.
    exists w1, b, w2. split; [by rewrite Em at 1; rewrite E|done].
  - intros (w1 & s & w2 & -> & H1 & Hs & H2). rewrite skip_app by done. destruct (value_head s t Hs) as (c & r & E & Hc). apply opens_not in Hc as (Hc & _).
    assert (skip_ws (s ++ w2) = s ++ w2) as -> by (rewrite E; cbn [app]; by apply skip_stop).
    rewrite (proj1 p_complete s t Hs); [|rewrite !app_length; lia|by apply blank_end]. by rewrite skip_blank.
Qed.
