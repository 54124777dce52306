# Formal model of python-bluetooth-mesh-messages in Coq 8.16.1

(Written by `tools/design.py` from `tools/design_head.md`, `tools/design_how.md` and `MANIFEST.json`.)

## 1. What is modelled

| Python (under /repo/bluetooth_mesh/messages) | Coq (rocq/theories) | how |
|---|---|---|
| Python values crossing the API (None, bool, int, float, str, bytes, list, tuple, set, dict/Container, IntEnum members, date, datetime, timedelta, IPv4Address), exceptions | `PyVal.v` (`val`, `res`, `dict`) | hand written |
| construct/lib/binary.py, int.to_bytes/from_bytes | `Bits.v` | hand written |
| binary64 arithmetic of CPython (`* / + -`, `round`, `int`) | `Float64.v` (exact rationals, round to nearest even on 53 bits) | hand written |
| UTF-8 codec (strict) | `Utf8.v` | hand written |
| every Adapter/Validator subclass of util.py, generics.py, config.py, properties.py, time.py, silvair/emergency_lighting_test.py | `Adapters.v` (`decode`, `encode`) | hand written, each definition cites its lines |
| construct's combinators as used here; Opcode, Reversed, EmbeddedBitStruct, SwitchStruct, EnumSwitchStruct, NamedSelect, DefaultCountValidator..., PropertyMixin, SensorSettingRawMixin, _SensorData | `Construct.v` (`con`, `parse`, `build`) | hand written, cites lines |
| every enum, Struct, Switch, Select... declaration of the 21 message modules | `G_<module>.v` (476 definitions) | generated from the source text (Python `ast`, nothing is executed) by `tools/gen.py`; every definition cites file:lines |
| `AccessMessage` (`__init__.py`) | `Access.v` | hand written |
| assignments of build to the caller's object | `Effects.v` | hand written |
| camelcase/snakecase, to_camelcase_dict/to_snakecase_dict (util.py:483-538) | `Names.v` | hand written |
| capnproto/generator.py: visitor, type names, ordinals, output text | `Capnp.v`, and `G_capnp.v` = the declarations it walks (generated by `tools/gen_capnp.py`) | hand written / generated |

Everything is total, computable Gallina. Exceptions are values (`Err EKey` for KeyError, `Err EOther`
for every other exception); non-termination (possible only in GreedyRange) is the value `Diverge`.

### Fidelity tests (no property rests on them)
`T_vectors.v`: 951 bytes/object pairs extracted from the literals of /repo/tests; the kernel checks that the
model builds and parses each as the test expects. `T_names.v`: 90+ conversions checked against CPython's own
`re`/`str` functions. `T_capnp.v`: the 314 messages of tests/test_capnproto.py. Float formulas were compared
with CPython (exhaustively for Time Exponential 8, transition times, delays).

### Not modelled, and simplifications
- `construct` is absent from the sandbox: its semantics (2.9.45, the version the project pins) are
  transcribed from knowledge of that release. `.compile()`d parsers are taken to behave like interpreted
  ones. This is the main trusted assumption.
- Streams are lists of bytes (bits inside Bitwise). A dict is an association list in insertion order
  (Python 3.7+). Error messages and exception classes other than KeyError are not distinguished.
- Floats: no NaN, no negative zero, unbounded exponent (no overflow to infinity or subnormals; no formula
  of the library gets near either for the domains quantified over). Wire floats (debugV2 FLOAT/DOUBLE) are
  opaque bit patterns.
- `math.log`/`pow` of libm: LogAdapter and TimeExponential8 use exact real arithmetic and correct rounding
  (compared with CPython for all 255 exponents and all integers up to 2^17).
- `int(text)` in MAC/IP text: plain digits only (no underscores, spaces or signs).
- The iteration order of a Python set is not modelled: a set is a list, and the theorems about sets
  quantify over every list with the same elements.
- `this` is the innermost Struct frame (no declaration uses `this._`).
- CSensorSetting: the parser's `except KeyError` around the *value* of a known property is not modelled
  (no property value parser of the model fails with KeyError: `properties_keyless`, `keyless_parse` in P_property.v); the builder's fallback is.
- Effects: the caller's object is a tree (no sharing).
- Names: ASCII names; a key `_name` of a Container is treated as the attribute construct's NameAdapter sets.
- Capnp: `make_name` is replaced by the name of the module-level variable holding the construct, computed by
  `tools/gen_capnp.py`; entering a union where a plain member of that name exists fails at once.
- Dead or documentation-only code: `_subcon`, `__construct_doc__`, `SensorSettingPropertyValue`,
  `TriggerDelta`, `FastCadencePeriodDivisorAndTriggerType`, `capnproto/__init__.py` (a shell command line).

## 2. Trusted base
1. Coq 8.16.1's kernel (including `vm_compute`), `coqc`.
2. `Print Assumptions`: for each of the 322 theorems listed in MANIFEST.json the answer is *Closed under the
   global context* (the command stands behind each theorem in `P_*.v`; `tools/assumptions.sh` re-runs it for
   every theorem of the manifest). No axiom is used, neither of ours nor of the standard library.
   (`coqchk -o` additionally lists seven `Coq.ssr.ssrunder.Under_rel.*` constants: they come with loading the
   `Lqa`/ssreflect plugin files, and no theorem depends on them.)
3. The transcription of Python, construct and pycapnp semantics described in section 1.
4. The translators `tools/gen.py` and `tools/gen_capnp.py` (their output is reviewed text and is exercised by the
   951 test vectors).
5. The specification files, which must be read to know what a theorem says: `Spec.v` (`message`: the
   well-formed objects and what a receiver reads back; no parser or builder in it), `AdapterSpec.v` (the
   documented domain of each adapter), `Layout.v`/`Doc.v` (documented positions of fields), `Reread.v`
   (Python's `==` on public views), and the definitions at the head of each P_ file.

## 3. Main lemmas
* `Master.roundtrip` (mutual induction over declarations): if a declaration passes the decidable check `wf`
  and `message A_spec c v v'`, then `build` succeeds, and `parse` of the bytes followed by any suffix (where the
  declaration is delimited) returns `v'` and leaves the suffix. Its adapter hypotheses are proved in
  `AdapterProofs1-4.v`; the check is evaluated by the kernel for the 23 families of `AccessMessage`.
* `Size.v`: minimal and exact sizes; `parse_nodiv`, `build_nodiv` (termination). `Local.parse_local`:
  a parse depends on consumed bytes only. `Deps.parse_agree/build_agree`: which keys of a context matter.
* `Sound.v`/`SoundAdapt.v`: what a parser returns is again in the domain of the builder (for C08).
* `Vocab.v`: the keys a decoded object can have (C51). `Shape.v`: the types and ranges of what a parser can
  return (C54). `Effects.v`: the object after a build (C17). `Recode.v`, `Carry*.v`: what may come back from
  Cap'n Proto and why it builds to the same bytes (C55).
* `FloatX.v`, `AdapterProofs3-4.v`: error analysis of binary64 for the scaled, timed and dated fields, uniform
  in the value (no enumeration of doubles).
* Finite tables (opcodes, the wire bytes of one-octet fields, declared names) are checked completely by
  computation in the kernel and then quantified over; nothing is bounded by a search depth.

## 4. Reading the theorems
* A false English claim is not dropped: the theorem suffixed `_refuted` exhibits a concrete counterexample (as the
  negation of the universal statement, or as a computation), and the strongest true version is proved beside it;
  `properties.jsonl` says "Precisely: ..." with that version. No theorem is suffixed `_partial`: nothing is left
  unproved of the precise versions.
* Beside each theorem an `Example ..._ex` instantiates its hypotheses with a concrete non-trivial message.
* Tables (`params`, `sub_params`, layout tables in P_layout.v, `schema_limits`) are hand-written specification; the
  `_coverage`/`_complete` theorems say that no message, sub-message or field is missing from them.

## 5. Wrong programs
`seeded/LOG.jsonl` records the edited models (section 5 of the task): for every edit the theorems that no longer
prove, and what was tightened.


## 6. Property by property

Each entry: what is modelled and how it is proved, then the theorems (in `theories/P_*.v`). The English text is in `properties.jsonl`.

**C01 — Round trip of every access message** (proved). `Spec.message` at the declarations of the 23 families; master theorem, then dispatch in `Access.v`.
Theorems: `C01_access_round_trip`, `C01_family_round_trip`.

**C02 — Unknown opcodes are transparent** (proved). Opcode codec over byte lists; `Access.v` falls back to GreedyBytes.
Theorems: `C02_unknown_opcode_transparent`, `C02_unknown_opcode_bytes`.

**C03 — Opcode field codec** (proved). Arithmetic on the three forms of `opcode_build`/`opcode_parse` (util.py:224-271); prefix-freeness by cases on the first byte.
Theorems: `C03_opcode_build`, `C03_opcode_parse`, `C03_legal_opcodes`, `C03_prefix_free`, `C03_7F_rejected`.

**C04 — Known opcodes are unambiguous** (proved). Complete computation over the generated opcode tables, lifted to "for all members".
Theorems: `C04_opcodes_legal`, `C04_value_determines_family`, `C04_name_determines_family`.

**C05 — Decoding always terminates** (proved). Induction over declarations: every GreedyRange element consumes at least one unit, so `Diverge` is unreachable for any byte string.
Theorems: `C05_parse_terminates`, `C05_build_terminates`, `C05_family_parse_terminates`.

**C06 — Parsing is local** (proved). `Local.parse_local` for declarations passing `loc`; the open-ended opcodes are listed and excluded; sub-messages in P_submsg.v.
Theorems: `C06_parsing_is_local`, `C06_access_trailing_bytes`, `C06_sub_message`.

**C07 — Encoding is injective on well-formed messages** (proved). Corollary of the round trip.
Theorems: `C07_injective`.

**C08 — Re-encoding what was decoded** (proved). Soundness of parsers (Sound.v): the decoded object is in the builder's domain unless it contains one of the listed lossy values; then the master theorem.
Theorems: `C08_descriptors`, `C08_sensor_data`, `C08_params`, `C08_access`, `C08_43_tenths_refuted`, `C08_scene_status_refuted`, `C08_unknown_time_refuted`.

**C09 — Building ignores key order and unknown keys** (proved). Induction over declarations: `build` only looks keys up (`same_argument` relates dictionaries up to order, at any depth).
Theorems: `C09_same_argument`, `C09_only_mentioned_keys`, `C09_unknown_key`, `C09_key_order`, `C09_access_message`, `C09_extended_items_first_entry_refuted`, `C09_empty_sensor_setting_refuted`.

**C10 — Enum arguments: member, number or name** (proved). EnumAdapter, for every enumeration in use and every value; parse and build.
Theorems: `C10_member_number_name`, `C10_others_rejected`, `C10_parse`, `C10_switch_key_by_name_refuted`.

**C11 — Integer fields never wrap** (proved). Two's complement arithmetic, every width and every integer.
Theorems: `C11_build_in_range`, `C11_build_out_of_range`, `C11_parse`, `C11_round_trip`.

**C12 — Bit fields and 24/40-bit fields reject out-of-range integers** (proved). Same for bit fields and BytesInteger; the claim is false, and the exact behaviour is characterised for every integer.
Theorems: `C12_bits_keep_low_bits`, `C12_bytesint_in_range`, `C12_bytesint_negative_rejected`, `C12_out_of_range_rejected_refuted`, `C12_int24_overflow`, `C12_bytesint_overflow`, `C12_bytesint_too_long_rejected`. Note: the first sentence is refuted (C12_out_of_range_rejected_refuted); the theorems prove the precise version, for every integer and every width.

**C13 — Address classification** (proved). Bit-mask arithmetic against interval specification, all 65536 addresses by arithmetic, not enumeration.
Theorems: `C13_address_type`, `C13_partition`.

**C14 — Address fields validate in both directions** (proved). Validators of config.py on both paths, for every address field in use (`Uses.all_uses`).
Theorems: `C14_address_fields`.

**C15 — Key index lists: any list round-trips as a sorted list** (proved). Induction on the list (pairs), sorting permutation.
Theorems: `C15_round_trip`.

**C16 — Key index packing** (proved). Induction on the list; closed form of the length and of each packed triple.
Theorems: `C16_packing`, `C16_length`, `C16_any_integers`.

**C17 — Building does not modify its argument** (proved). `Effects.after` models the three assignments; unchanged for every other declaration; the key list is refuted.
Theorems: `C17_unchanged`, `C17_opcode_by_name`, `C17_time`, `C17_twice`, `C17_key_list_refuted`.

**C18 — Transition time: encoding picks the finest resolution and never exceeds the request** (proved). binary64 multiplication and comparison, all non-negative rationals.
Theorems: `C18_encode`, `C18_too_long_rejected`, `C18_decode`.

**C19 — Transition time: decoded values are fixed points** (proved). Complete computation over the 256 bytes, plus the list of decimal literals.
Theorems: `C19_fixed_points`, `C19_43_refuted`, `C19_literals`.

**C20 — Unknown transition time** (proved). Adapter with and without the unknown value, all arguments.
Theorems: `C20_build`, `C20_parse_refuted`, `C20_gap`.

**C21 — Delay** (proved). binary64 division/multiplication; complete over the 256 bytes, analytic over all requested delays.
Theorems: `C21_decode`, `C21_encode`, `C21_too_long_rejected`, `C21_reencode`, `C21_whole_seconds`.

**C22 — Scaled property values round-trip** (proved). Error analysis uniform in the raw integer, for every resolution in use.
Theorems: `C22_all_fields`, `C22_round_trip`.

**C23 — Scaled property values: nearest raw value** (proved). Error analysis, nearest integer.
Theorems: `C23_nearest`, `C23_unknown`, `C23_unknown_alias_refuted`.

**C24 — Logarithmic fields** (proved). Exact arithmetic of powers of two; every rational argument.
Theorems: `C24_all_fields`, `C24_decode`, `C24_encode`, `C24_special`.

**C25 — Time Exponential 8** (proved). Complete over the 256 wire values; encode analytic.
Theorems: `C25_all_fields`, `C25_decode`, `C25_round_trip`, `C25_encode`.

**C26 — Retransmit parameters** (proved). Integer arithmetic, every count and interval. `P_transmit.v` carries this to the network transmit messages; the tables of C52 name the step of the fields.
Theorems: `C26_all_fields`, `C26_build`, `C26_parse`, `C26_reject`, `C26_network_sent`, `C26_network_refused`, `C26_network_received`.

**C27 — Bit-list fields as sets** (proved). Bits of the two octets against set membership; any size and either order in `C27_any_size`.
Theorems: `C27_all_fields`, `C27_build`, `C27_same_set`, `C27_parse`, `C27_round_trip`, `C27_any_size`.

**C28 — Set-valued lists** (proved). Induction on lists with permutations.
Theorems: `C28_all_fields`, `C28_entry_ids`, `C28_rule_ids`.

**C29 — MAC address text** (proved). Hexadecimal digits, every six-octet string.
Theorems: `C29_round_trip`, `C29_build`, `C29_C30_C31_all_fields`.

**C30 — IP address text** (proved). Decimal digits, every address.
Theorems: `C30_text`, `C30_reencode_refuted`, `C29_C30_C31_all_fields`. Note: the re-encoding half is refuted for every address (C30_reencode_refuted), the text half proved.

**C31 — Dates** (proved). Calendar arithmetic: `civil_calendar` relates day counts to (y, m, d) for all years 1..9999.
Theorems: `C31_parse`, `C31_build`, `C31_build_plain`, `C31_build_dict`, `C31_calendar_functional`, `C31_calendar_total`, `C29_C30_C31_all_fields`.

**C32 — Time message round trip** (proved). Microsecond arithmetic and binary64 rounding of the 1/256 s grid; every representable date.
Theorems: `C32_parse`, `C32_parse_unknown`, `C32_octets`, `C32_round_trip`, `C32_any_date`, `C32_other_spellings`, `C32_uncertainty_octet`.

**C33 — Time message never drops fields** (proved). Which fractions round up to a whole second; exact window.
Theorems: `C33_complete_or_seconds`, `C33_complete_message`, `C33_complete_message_refuted`, `C33_short_message_rejected`. Note: the first sentence is refuted (C33_complete_message_refuted); C33_complete_or_seconds proves the precise version for every complete object.

**C34 — Time zone and TAI-UTC delta** (proved). Integer arithmetic on offsets and deltas.
Theorems: `C34_zone_and_delta`, `C34_zone_off_grid_rejected`, `C34_fractional_delta_rejected`, `C34_out_of_range_delta_refuted`.

**C35 — Emergency lighting test timestamp** (proved). Arithmetic of the packed timestamp; every field value.
Theorems: `C35_parse`, `C35_round_trip`, `C35_all_fields`.

**C36 — Optional fields are all or nothing** (proved). For the table of messages with an optional tail: both forms, by the master theorem, and by length for received bytes; the list of faults that may be left out (P_defaults.v) by computation with symbolic fields.
Theorems: `C36_faults_omitted`, `C36_lengths`, `C36_long`, `C36_short`, `C36_all_or_nothing`, `C36_received`, `C36_coverage`.

**C37 — Invalid optional fields are reported** (proved). Select falls back: `error_iff` for every argument.
Theorems: `C37_never_an_error`, `C37_silently_short`, `C37_error_iff`, `C37_named_form_reported`, `C37_invalid_optional_reported_refuted`. Note: the first sentence is refuted; C37_error_iff proves the precise version.

**C38 — Counts are computed, not trusted** (proved). Rebuild fields: the value passed by the caller is irrelevant; received lists have that length.
Theorems: `C38_passed_count_ignored`, `C38_coverage`, `C38_page0_element`, `C38_page1_element`, `C38_mesh_profile_entry`, `C38_relation_item`, `C38_relation_item_64_refuted`, `C38_received`.

**C39 — Text fields** (proved). UTF-8 encoder/decoder inverse on all code point lists; padded, pascal, greedy, counted strings.
Theorems: `C39_utf8_decode_encode`, `C39_utf8_encode_decode`, `C39_utf8_domain`, `C39_utf8_ascii`, `C39_fixed_build`, `C39_fixed_rejects`, `C39_fixed_parse`, `C39_fixed_round_trip`, `C39_trailing_nul`, `C39_fixed_property_bytes`, `C39_fixed_property_str`, `C39_fixed_property_parse`, `C39_not_text_rejected`, `C39_pascal_build`, `C39_pascal_parse`, `C39_pascal_round_trip`, `C39_greedy`, `C39_greedy_total`, `C39_greedy_not_utf8`, `C39_counted_build`, `C39_counted_parse`, `C39_coverage`.

**C40 — Sensor data header** (proved). Header arithmetic for every id and length.
Theorems: `C40_head_octets`, `C40_head_unique`, `C40_head_total`, `C40_build_known`, `C40_build_unknown`, `C40_build_head`, `C40_rejects`, `C40_short_format_spills_refuted`, `C40_parse`.

**C41 — Sensor data list** (proved). Induction on the list of entries.
Theorems: `C41_received`, `C41_unreadable_entry_refuted`, `C41_round_trip`, `C41_wrong_length_refuted`.

**C42 — Sensor descriptor list** (proved). Induction on the list of descriptors; exact characterisation.
Theorems: `C42_received`, `C42_round_trip`, `C42_exactly`, `C42_four_short_refuted`.

**C43 — Property messages** (proved). For every property message and every property: what build sends, what parse returns, what is rejected.
Theorems: `C43_sent`, `C43_sent_only`, `C43_unknown_id_rejected`, `C43_missing_value_rejected`, `C43_missing_auto_resume_mode_refuted`, `C43_received`, `C43_received_unknown_rejected`, `C43_received_bad_value_rejected`, `C43_round_trip`.

**C44 — Sensor settings with unknown properties** (proved). Raw fallback; known properties. No value type of the property table can fail with KeyError when reading (a syntactic class of types, checked over the table by computation, and an induction), so the parser's `except KeyError` is never entered for a known property.
Theorems: `C44_raw_sent`, `C44_raw_received`, `C44_reencoded`, `C44_known_sent`, `C44_known_received`, `C44_known_bad_value_rejected`, `C44_known_missing_rejected`, `C44_known_round_trip`, `C44_known_bad_octets_rejected`.

**C45 — Reserved bits** (proved). Bit-level: every padding position is sent as zero and its value on the wire does not affect the decoded object.
Theorems: `C45_sent_as_zero`, `C45_part_sent_as_zero`, `C45_ignored`, `C45_part_ignored`, `C45_coverage`.

**C46 — Truncated messages are rejected or are the documented shorter form** (proved). Size lemmas; list of exceptions with witnesses.
Theorems: `C46_truncation_parse`, `C46_truncation`, `C46_optional_truncated_refuted`, `C46_sub_truncation_parse`, `C46_sub_truncation`, `C46_exceptions_are_real`, `C46_sub_exceptions_are_real`. Note: the exceptions are listed and shown to be real (C46_exceptions_are_real, C46_sub_exceptions_are_real).

**C47 — Every known opcode carries its parameters** (proved). Complete over the opcode table.
Theorems: `C47_params_carried_refuted`, `C47_params_carried`, `C47_dropped_exactly`. Note: refuted for exactly seven opcodes (C47_dropped_exactly), proved for the others.

**C48 — Sub-opcodes are distinct** (proved). Complete over the sub-opcode tables.
Theorems: `C48_sub_opcodes_distinct_refuted`, `C48_sub_opcodes_distinct`. Note: refuted for one pair (C48_sub_opcodes_distinct_refuted), proved for every other family.

**C49 — AccessMessage agrees with the message families** (proved). `params` (196 rows) and `sub_params` (85 rows): an access message is its opcode followed by the parameters of that row. `P_contents.v` names the opcodes of the messages whose contents C32, C33, C40-C42 and C44 describe.
Theorems: `C49_parse_agrees`, `C49_build_agrees`, `C49_build_by_name`, `C49_other_names_rejected`, `C49_contents_sent`, `C49_contents_received`, `C49_message_build`, `C49_message_parse`, `C49_params_complete`, `C49_submessage_build`, `C49_submessage_parse`.

**C50 — AccessMessage can be embedded in a stream** (proved). The seek(0) of `__init__.py` modelled as parsing from the start of the stream.
Theorems: `C50_embedded_refuted`, `C50_embedded_unknown`, `C50_embedded_known`, `C50_embedded_other_family_rejected`. Note: refuted for known opcodes (C50_embedded_refuted); the theorems say what is decoded instead.

**C51 — Case conversion is invertible on field names** (proved). Case conversion over ASCII strings: general theorem for names of the regular form, computation over the declared vocabulary, induction over decoded objects; hexadecimal text by an inductive reading relation.
Theorems: `C51_name_round_trip`, `C51_round_trip`, `C51_vocabulary`, `C51_message`, `C51_app_key_indices_refuted`, `C51_gatt_proxy_refuted`, `C51_digits_then_letters_refuted`, `C51_one_letter_words_refuted`, `C51_date_parts`, `C51_date_again`, `C51_time_again`, `C51_octets`.

**C52 — Wire layout** (proved). Hand-written tables of documented positions (Doc.v/Layout.v) for all messages; build puts and parse takes each field there, for every value.
Theorems: `C52_build`, `C52_parse`, `C52_coverage`, `C52_sub_build`, `C52_sub_parse`, `C52_sub_coverage`, `C52_part_build`, `C52_part_parse`, `C52_delta_uv_signed_refuted`, `C52_feature_order_refuted`.

**C53 — Cap'n Proto schema generation** (proved). Induction over arbitrary declaration trees for the generator; evaluation of the generator on the library's own declarations and a validity checker proved sound.
Theorems: `C53_ordinals`, `C53_complete`, `C53_names`, `C53_unnamed_union_refuted`, `C53_struct_twice_refuted`, `C53_member_lost_refuted`, `C53_library_schema`.

**C54 — Decoded messages fit the generated Cap'n Proto schema** (proved). `Shape.parse_shape` (induction over declarations) gives the type of every decoded value; compared with the generated schema; `fits` is an independent specification of what the schema accepts; an equivalence with the listed limits.
Theorems: `C54_fits`, `C54_schema`, `C54_limits_reached`, `C54_test_messages`. Note: C54_fits is an equivalence; the first sentence is false for the messages that break a limit (C54_limits_reached).

**C55 — Messages survive the way through Cap'n Proto** (proved). `Carry.returns` specifies independently what `to_dict` may give back for a value put into a member (any order of keys, integers and texts as they are, floats rounded to the member's width, text assigned to Data as its UTF-8 bytes); `Recode.recode_mut` proves that building depends only on what the relation `rc` compares; `CarryRt.carry_mut` (induction over declarations) that what comes back is related by `rc` to what was decoded; the tables of declarations and the schema are compared by a computed check.
Theorems: `C55_recode`, `C55_received`, `C55_same_bytes`, `C55_test_messages`, `C55_limits_reached`, `C55_steps_lost`, `C55_delays_lost`. Note: C55_recode, C55_received and C55_same_bytes for every message outside the listed exceptions, each of which is reached (C55_limits_reached, C55_steps_lost, C55_delays_lost; 43 tenths is already an exception of C08).

**C56 — Enumerated fields carry the documented codes** (proved). Hand-written code tables and the places they are used at (`Codes.v`); `Shape.parse_shape` bounds what any decoded message can hold, compared with the tables; a sample message for every code of every place.
Theorems: `C56_received`, `C56_reached`.

**C57 — Variable-length contents follow their grammar** (proved). `Grammar.v` is a hand-written grammar (`enc`: a relation between a value and its octets) of each message; `form` relates declarations to grammars, and induction over `form` proves that what is built, what is parsed and what is accepted are the grammar's (`sends_all`, `receives_all`, `accepts_all`). It also fixes the counts of C38 for the nested lists.
Theorems: `C57_sent`, `C57_received`, `C57_sub_sent`, `C57_sub_received`, `C57_accepted`, `C57_sub_accepted`.

**C58 — Property values have the documented format** (proved). `PropValues.v` is a hand-written table of the properties in the grammar language of C57, with quantities as rationals (within 2^-50) instead of floats; `PropForms.v` proves, type by type, that the declared value type has the documented format (from the proofs of C22, C25, C31 and C39), `PropTables.v` that the tables agree row by row, and the theorems carry that over to every message with a property value (C40, C41, C43, C44, C49).
Theorems: `C58_sent`, `C58_received`, `C58_accepted`, `C58_unknown_rejected`, `C58_sub_sent`, `C58_sub_received`, `C58_sub_accepted`, `C58_sub_unknown_rejected`, `C58_setting_sent`, `C58_setting_accepted`, `C58_sensor_status_sent`, `C58_sensor_status_accepted`.

**C59 — Gateway configurations say what their octets say** (proved). `P_gateway.v`: a specification of the octets of the three forms, written with numbers, dotted addresses, MAC texts and UTF-8 only; the four `_sent` theorems follow the fields of the struct (a missing member makes the longer form fail, so that Select takes the shorter one), the `_accepted` theorems the parser, and the `_received` theorems show that every accepted octet string is of the specified form (the tail has a form for every length). The same parts give SERVER_ADDRESS_AND_PORT_NUMBER_SET (`C59_address_*`).
Theorems: `C59_auto_sent`, `C59_dns_sent`, `C59_static_sent`, `C59_status_sent`, `C59_set_accepted`, `C59_set_received`, `C59_status_accepted`, `C59_status_received`, `C59_address_sent`, `C59_address_accepted`, `C59_address_received`.

**C60 — Messages with documented values are accepted, others are not** (proved). `Limits.v` is a hand-written table of the restricted fields (the codes are those of `Codes.v`); `LayoutAccept.v` proves the converse of C52's layout theorems (octets every item of which can be read are read, fields every one of which can be written are written); `P_limits.v` proves that a field's validators let through exactly the numbers the tables allow (address kinds joined into ranges, masks, bounds, enumerations), checks by computation that each of the fields of the documented messages carries the validator of its table row and no other, and lifts this to whole messages, forms and sub-messages in both directions.
Theorems: `C60_accepted`, `C60_received`, `C60_sent`, `C60_built`, `C60_sub_accepted`, `C60_sub_received`, `C60_sub_sent`, `C60_sub_built`.
