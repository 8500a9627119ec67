(** Properties C125-C127: the models of schemas. [float_ok] decides which numbers that
    are no integers of 64 bits are small enough for a floating point number. *)
From Coq Require Import String Ascii.
From Verif Require Import Prelude CommonTypes ScModel ScSpec ScFinal JsModel JsSpec JsProofs JsFinal.

(** The conditions of a creation apart from those on the model (C100) *)
Definition otherwise_creatable : ScState -> Request -> Prop := creatable (runtime_schemas (fun _ _ => true)).
Lemma split_conditions ok st r : creatable (json_schemas ok) st r <-> valid_model ok (rq_type r) (rq_model r) = true /\ otherwise_creatable st r.
Proof. unfold otherwise_creatable, creatable, json_schemas. cbn [runtime_schemas sf_valid_model sf_min_bytes sf_hard_max sf_max_settings]. tauto. Qed.

(** ** C125: an Avro model is accepted exactly if it is the text of a JSON object, not
    deeper than 127 levels, with strings that are text and numbers in range. *)
Theorem C125_accepted_exactly :
  forall float_ok g h x r key allowed, creates x = Some (r, key, allowed) -> rq_type r = AvroBinary ->
  let st := sc_run (json_schemas float_ok) (sc_genesis g) h in
  is_ok (sc_apply (json_schemas float_ok) st x) = true <->
    allowed = true /\ otherwise_creatable st r
    /\ exists l, json_text (rq_model r) (JObj l) /\ held (in_range float_ok) 127 (JObj l).
Proof.
  intros ok g h x r key allowed Hc Ht st. unfold st. rewrite (create_iff (json_schemas ok) g h x r key allowed Hc), split_conditions, Ht, avro_iff. tauto.
Qed.
Print Assumptions C125_accepted_exactly.
Theorem C125_registered :
  forall float_ok g h id r, get_schema_by_id (sc_run (json_schemas float_ok) (sc_genesis g) h) id = Some r -> sr_model_type r = AvroBinary ->
  exists l, json_text (sr_model r) (JObj l) /\ held (in_range float_ok) 127 (JObj l).
Proof.
  intros ok g h id r Hr Ht. apply rules_lemma in Hr as (_ & Hv & _). rewrite Ht in Hv. by apply avro_iff in Hv.
Qed.
Print Assumptions C125_registered.
(** A text has one tree. *)
Theorem C125_one_reading : forall m t t', json_text m t -> json_text m t' -> t = t'.
Proof. exact one_tree. Qed.
Print Assumptions C125_one_reading.

(** The texts of the repository's own tests (pallets/schemas/src/tests/serde_tests.rs:10-58).
    A backtick stands for a quote. *)
Definition model (s : string) : list N := map (fun c => if c =? 96 then 34 else c) (chars s).
(** Floating point numbers with an exponent of more than three characters are out of range. *)
Definition small (n : list N) : bool := match list_find (fun c => c = 101) n with Some (i, _) => (length n - i <=? 4)%nat | None => true end.
Definition avro_ok (s : string) : bool := valid_model small AvroBinary (model s).
Example C125_repository_tests :
  forallb avro_ok
    ["{`name`:`John Doe`}"; "{`minimum`: -90,`maximum`: 90}"; "{`a`:0}"; "{`fruits`:[ `apple`,{`fruitName`: `orange`,`fruitLike`: true }]}";
     "{ `alias`: `0xd8f3` }"]%string = true
  /\ forallb (fun s => negb (avro_ok s))
    ["true"; "567"; "string"; ""; "[`this`,`is`,`a`,`weird`,`array`]"; "{ `name`, `John Doe` }"; "{ `minimum`: -90, 90 }";
     "{ `fruits`: [ `apple`, {`fruitName`: `orange` `fruitLike`: true }}"; "{ `name`: "; "{ 56: `number` }"; "{ `file address`: `file path` \r\n}";
     "{ `unicode code point`: `\ud83f` }"; "{ `v`: 300e715100 }"; "null"]%string = true.
Proof. vm_compute. split; reflexivity. Qed.
(** A call that is accepted, and one that is not *)
Definition create (mt : ModelType) (s : string) : ScX :=
  {| sx_origin := ScSigned 7; sx_council_ok := true; sx_call := CreateSchemaV3 (model s) mt Paginated [] None |}.
Example C125_nonvacuous :
  let st := sc_run (json_schemas small) (sc_genesis 1000) [create AvroBinary "{`type`: `int`}"] in
  is_ok (sc_apply (json_schemas small) st (create AvroBinary "{`type`: `int`}")) = true
  /\ option_map sr_model (get_schema_by_id st 1) = Some (model "{`type`: `int`}")
  /\ is_ok (sc_apply (json_schemas small) st (create AvroBinary "{`type`: `int`")) = false.
Proof. vm_compute. repeat split; reflexivity. Qed.

(** ** C126: Parquet. Accepted are exactly the lists of columns, but with codecs spelled
    in the code's own way, and with any byte as the width of an integer. *)
Theorem C126_accepted_exactly_partial :
  forall float_ok g h x r key allowed, creates x = Some (r, key, allowed) -> rq_type r = Parquet ->
  let st := sc_run (json_schemas float_ok) (sc_genesis g) h in
  is_ok (sc_apply (json_schemas float_ok) st x) = true <->
    allowed = true /\ otherwise_creatable st r
    /\ exists l, json_text (rq_model r) (JArr l) /\ Forall (column accepted_codecs float_ok) l.
Proof.
  intros ok g h x r key allowed Hc Ht st. unfold st. rewrite (create_iff (json_schemas ok) g h x r key allowed Hc), split_conditions, Ht, parquet_iff. tauto.
Qed.
Print Assumptions C126_accepted_exactly_partial.
Theorem C126_registered_partial :
  forall float_ok g h id r, get_schema_by_id (sc_run (json_schemas float_ok) (sc_genesis g) h) id = Some r -> sr_model_type r = Parquet ->
  exists l, json_text (sr_model r) (JArr l) /\ Forall (column accepted_codecs float_ok) l.
Proof.
  intros ok g h id r Hr Ht. apply rules_lemma in Hr as (_ & Hv & _). rewrite Ht in Hv. by apply parquet_iff in Hv.
Qed.
Print Assumptions C126_registered_partial.
(** The texts of pallets/schemas/src/tests/other_tests.rs:118 and 178, and some others *)
Definition parquet_ok (s : string) : bool := valid_model small Parquet (model s).
Example C126_repository_tests :
  forallb parquet_ok
    ["[{`name`: `Foo`, `column_type`: `BOOLEAN`, `compression`: `UNCOMPRESSED`, `bloom_filter`: true}]";
     "[{`name`:`Baz`,`column_type`:{`INTEGER`:{`bit_width`:32,`sign`:false}},`compression`:`LZ4_RAW`,`bloom_filter`:true}]";
     "[[`Baz`, {`TIME`: [true, `NANOS`]}, {`GZIP`: null}, false]]"]%string = true
  /\ forallb (fun s => negb (parquet_ok s))
    ["[{`name`: `Foo`, `column_type`: `BOOLEAN`, `compression`: `UNCOMPRESSED`}]";
     "[{`name`: `Foo`, `name`: `Foo`, `column_type`: `BOOLEAN`, `compression`: `GZIP`, `bloom_filter`: true}]";
     "[{`name`:`Baz`,`column_type`:{`INTEGER`:{`bit_width`:256,`sign`:false}},`compression`:`GZIP`,`bloom_filter`:true}]"]%string = true.
Proof. vm_compute. split; reflexivity. Qed.
Example C126_nonvacuous :
  is_ok (sc_apply (json_schemas small) (sc_genesis 1000) (create Parquet "[[`Baz`, `UUID`, `GZIP`, false]]")) = true.
Proof. vm_compute. reflexivity. Qed.

(** A column with the codec ZSTD is refused ... *)
Definition zstd_column (codec : string) : Js := JArr [JStr (chars "a"); JStr (chars "DATE"); JStr (chars codec); JBool true].
Lemma ascii_reads s : Forall (fun c => 32 <= c < 128 /\ c <> 34 /\ c <> 92) s -> reads s s.
Proof.
  induction 1 as [|c s (Hc & H1 & H2) Hs IH]; [constructor|]. assert (Utf8.utf8_char c = [c]) as E by (unfold Utf8.utf8_char; destruct (N.ltb_spec c 128); [done|lia]).
  change (c :: s) with ([c] ++ s) at 1. rewrite <- E. constructor; [left; lia|lia|done|done|done].
Qed.
Ltac ascii := apply ascii_reads; repeat constructor; vm_compute; try discriminate; reflexivity.
Lemma zstd_is_column codecs codec ok : codec ∈ codecs -> reads (chars codec) (chars codec) -> column codecs ok (zstd_column codec).
Proof.
  intros Hin Hr. left. eexists. split; [reflexivity|]. constructor; [exists (chars "a"); split; [done|exists (chars "a"); ascii]|].
  constructor.
  { split; [|constructor; exists (chars "DATE"); ascii]. left. exists "DATE"%string, (chars "DATE"). split; [rewrite !elem_of_cons; tauto|]. split; [ascii|by left]. }
  constructor; [exists codec, (chars codec); split; [done|]; split; [done|by left]|]. constructor; [by exists true|constructor].
Qed.
Theorem C126_zstd_refuted :
  exists x r, creates x = Some (r, 7, true) /\ rq_type r = Parquet /\ otherwise_creatable (sc_genesis 1000) r
  /\ (exists l, json_text (rq_model r) (JArr l) /\ l <> [] /\ forall float_ok, Forall (column parquet_codecs float_ok) l)
  /\ forall float_ok, is_ok (sc_apply (json_schemas float_ok) (sc_genesis 1000) x) = false.
Proof.
  exists (create Parquet "[[`a`, `DATE`, `ZSTD`, true]]"). eexists. split; [reflexivity|]. split; [reflexivity|]. split; [|split].
  - split; [reflexivity|]. split; [split; vm_compute; discriminate|]. split; [vm_compute; discriminate|]. split; [vm_compute; discriminate|].
    split; [intros H; by apply elem_of_nil in H|]. split; [vm_compute; reflexivity|]. intros p [=].
  - exists [zstd_column "ZSTD"]. split; [apply parse_iff; vm_compute; reflexivity|]. split; [done|]. intros ok. constructor; [|constructor].
    apply zstd_is_column; [unfold parquet_codecs; rewrite !elem_of_cons; tauto|ascii].
  - intros ok. vm_compute. reflexivity.
Qed.
Print Assumptions C126_zstd_refuted.
(** ... it has to be written Z_S_T_D, which no reader of Parquet knows. *)
Theorem C126_other_codec_refuted :
  exists x r, creates x = Some (r, 7, true) /\ rq_type r = Parquet
  /\ (forall float_ok, is_ok (sc_apply (json_schemas float_ok) (sc_genesis 1000) x) = true)
  /\ forall float_ok l, json_text (rq_model r) (JArr l) -> ~ Forall (column parquet_codecs float_ok) l.
Proof.
  exists (create Parquet "[[`a`, `DATE`, `Z_S_T_D`, true]]"). eexists. split; [reflexivity|]. split; [reflexivity|]. split; [intros ok; vm_compute; reflexivity|].
  intros ok l Hl Hc. assert (json_text (model "[[`a`, `DATE`, `Z_S_T_D`, true]]") (JArr [zstd_column "Z_S_T_D"])) as H by (apply parse_iff; vm_compute; reflexivity).
  pose proof (one_tree _ _ _ Hl H) as E. injection E as ->. inversion Hc as [|? ? Hcol _]; subst. destruct Hcol as [(l & E & Hf)|(l & E & _)]; [|discriminate].
  injection E as <-. inversion Hf as [|? ? ? ? _ Hf1]; subst. inversion Hf1 as [|? ? ? ? _ Hf2]; subst. inversion Hf2 as [|? ? ? ? Hw _]; subst. cbn [snd] in Hw.
  destruct Hw as (w & s & Hw & Hr & [Es|Es]); [|discriminate]. injection Es as <-.
  assert (reads (chars "Z_S_T_D") (chars "Z_S_T_D")) as Hr' by ascii. pose proof (reads_fun _ _ _ Hr Hr') as E.
  unfold parquet_codecs in Hw. rewrite !elem_of_cons, elem_of_nil in Hw. repeat destruct Hw as [->|Hw]; vm_compute in E; try discriminate. done.
Qed.
Print Assumptions C126_other_codec_refuted.
(** Integers of seven bits, and decimals with more digits after the point than in all,
    are accepted. *)
Theorem C126_meaningless_types_refuted :
  forall float_ok,
  is_ok (sc_apply (json_schemas float_ok) (sc_genesis 1000) (create Parquet "[[`a`, {`INTEGER`: {`bit_width`: 7, `sign`: true}}, `GZIP`, true]]")) = true
  /\ is_ok (sc_apply (json_schemas float_ok) (sc_genesis 1000) (create Parquet "[[`a`, {`DECIMAL`: {`scale`: 9, `precision`: 0}}, `GZIP`, true]]")) = true.
Proof. intros ok. split; vm_compute; reflexivity. Qed.
Print Assumptions C126_meaningless_types_refuted.

(** ** C127: what is registered as an Avro schema. It is a JSON object (C125) ... *)
Theorem C127_object_partial :
  forall float_ok g h id r, get_schema_by_id (sc_run (json_schemas float_ok) (sc_genesis g) h) id = Some r -> sr_model_type r = AvroBinary ->
  exists l, json_text (sr_model r) (JObj l).
Proof. intros ok g h id r Hr Ht. destruct (C125_registered ok g h id r Hr Ht) as (l & Hl & _). by exists l. Qed.
Print Assumptions C127_object_partial.
(** ... but need not even have the key "type" that every Avro schema in the form of
    an object has. *)
Theorem C127_no_type_refuted :
  exists h r, (forall float_ok, get_schema_by_id (sc_run (json_schemas float_ok) (sc_genesis 1000) h) 1 = Some r) /\ sr_model_type r = AvroBinary
  /\ forall l, json_text (sr_model r) (JObj l) -> forall k v, (k, v) ∈ l -> ~ reads k (chars "type").
Proof.
  exists [create AvroBinary "{`a`: null}"]. eexists. split; [intros ok; vm_compute; reflexivity|]. split; [reflexivity|].
  intros l Hl k v Hk Hr. assert (json_text (model "{`a`: null}") (JObj [(chars "a", JNull)])) as H by (apply parse_iff; vm_compute; reflexivity).
  pose proof (one_tree _ _ _ Hl H) as E. injection E as ->. apply elem_of_list_singleton in Hk as [= -> ->].
  assert (reads (chars "a") (chars "a")) as Hr' by ascii. pose proof (reads_fun _ _ _ Hr Hr') as E. discriminate.
Qed.
Print Assumptions C127_no_type_refuted.
