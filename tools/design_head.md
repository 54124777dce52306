# Formal model of python-bluetooth-mesh-messages in Coq 8.16.1

(Written by `tools/design.py` from `tools/design_head.md`, `tools/design_how.md` and `MANIFEST.json`.)

## 1. What is modelled

| Python (under /repo/bluetooth_mesh/messages) | Coq (rocq/theories) | how |
|---|---|---|
| Python values crossing the API (None, bool, int, float, str, bytes, list, tuple, set, dict/Container, IntEnum members, date, datetime, timedelta, IPv4Address), exceptions | `PyVal.v` (`val`, `res`, `dict`) | hand written |
| construct/lib/binary.py, int.to_bytes/from_bytes | `Bits.v` | hand written |
| binary64 arithmetic of CPython (`* / + -`, `round`, `int`) | `Float64.v` (exact rationals, round to nearest even on 53 bits) | hand written |
| UTF-8 codec (strict) | `Utf8.v` | hand written |
| every Adapter/Validator subclass of util.py, generics.py, config.py, properties.py, time.py, silvair/emergency_lighting_test.py | `Adapters.v` (`decode`, `encode`) | hand written, each definition cites its lines |
| construct's combinators as used here; Opcode, Reversed, EmbeddedBitStruct, SwitchStruct, EnumSwitchStruct, NamedSelect, DefaultCountValidator..., PropertyMixin, SensorSettingRawMixin, _SensorData | `Construct.v` (`con`, `parse`, `build`) | hand written, cites lines |
| every enum, Struct, Switch, Select... declaration of the 21 message modules | `G_<module>.v` (476 definitions) | generated from the source text (Python `ast`, nothing is executed) by `tools/gen.py`; every definition cites file:lines |
| `AccessMessage` (`__init__.py`) | `Access.v` | hand written |
| assignments of build to the caller's object | `Effects.v` | hand written |
| camelcase/snakecase, to_camelcase_dict/to_snakecase_dict (util.py:483-538) | `Names.v` | hand written |
| capnproto/generator.py: visitor, type names, ordinals, output text | `Capnp.v`, and `G_capnp.v` = the declarations it walks (generated by `tools/gen_capnp.py`) | hand written / generated |

Everything is total, computable Gallina. Exceptions are values (`Err EKey` for KeyError, `Err EOther`
for every other exception); non-termination (possible only in GreedyRange) is the value `Diverge`.

### Fidelity tests (no property rests on them)
`T_vectors.v`: 951 bytes/object pairs extracted from the literals of /repo/tests; the kernel checks that the
model builds and parses each as the test expects. `T_names.v`: 90+ conversions checked against CPython's own
`re`/`str` functions. `T_capnp.v`: the 314 messages of tests/test_capnproto.py. Float formulas were compared
with CPython (exhaustively for Time Exponential 8, transition times, delays).

### Not modelled, and simplifications
- `construct` is absent from the sandbox: its semantics (2.9.45, the version the project pins) are
  transcribed from knowledge of that release. `.compile()`d parsers are taken to behave like interpreted
  ones. This is the main trusted assumption.
- Streams are lists of bytes (bits inside Bitwise). A dict is an association list in insertion order
  (Python 3.7+). Error messages and exception classes other than KeyError are not distinguished.
- Floats: no NaN, no negative zero, unbounded exponent (no overflow to infinity or subnormals; no formula
  of the library gets near either for the domains quantified over). Wire floats (debugV2 FLOAT/DOUBLE) are
  opaque bit patterns.
- `math.log`/`pow` of libm: LogAdapter and TimeExponential8 use exact real arithmetic and correct rounding
  (compared with CPython for all 255 exponents and all integers up to 2^17).
- `int(text)` in MAC/IP text: plain digits only (no underscores, spaces or signs).
- The iteration order of a Python set is not modelled: a set is a list, and the theorems about sets
  quantify over every list with the same elements.
- `this` is the innermost Struct frame (no declaration uses `this._`).
- CSensorSetting: the parser's `except KeyError` around the *value* of a known property is not modelled
  (no property value parser of the model fails with KeyError: `properties_keyless`, `keyless_parse` in P_property.v); the builder's fallback is.
- Effects: the caller's object is a tree (no sharing).
- Names: ASCII names; a key `_name` of a Container is treated as the attribute construct's NameAdapter sets.
- Capnp: `make_name` is replaced by the name of the module-level variable holding the construct, computed by
  `tools/gen_capnp.py`; entering a union where a plain member of that name exists fails at once.
- Dead or documentation-only code: `_subcon`, `__construct_doc__`, `SensorSettingPropertyValue`,
  `TriggerDelta`, `FastCadencePeriodDivisorAndTriggerType`, `capnproto/__init__.py` (a shell command line).

## 2. Trusted base
1. Coq 8.16.1's kernel (including `vm_compute`), `coqc`.
2. `Print Assumptions`: for each of the @N@ theorems listed in MANIFEST.json the answer is *Closed under the
   global context* (the command stands behind each theorem in `P_*.v`; `tools/assumptions.sh` re-runs it for
   every theorem of the manifest). No axiom is used, neither of ours nor of the standard library.
   (`coqchk -o` additionally lists seven `Coq.ssr.ssrunder.Under_rel.*` constants: they come with loading the
   `Lqa`/ssreflect plugin files, and no theorem depends on them.)
3. The transcription of Python, construct and pycapnp semantics described in section 1.
4. The translators `tools/gen.py` and `tools/gen_capnp.py` (their output is reviewed text and is exercised by the
   951 test vectors).
5. The specification files, which must be read to know what a theorem says: `Spec.v` (`message`: the
   well-formed objects and what a receiver reads back; no parser or builder in it), `AdapterSpec.v` (the
   documented domain of each adapter), `Layout.v`/`Doc.v` (documented positions of fields), `Reread.v`
   (Python's `==` on public views), and the definitions at the head of each P_ file.

## 3. Main lemmas
* `Master.roundtrip` (mutual induction over declarations): if a declaration passes the decidable check `wf`
  and `message A_spec c v v'`, then `build` succeeds, and `parse` of the bytes followed by any suffix (where the
  declaration is delimited) returns `v'` and leaves the suffix. Its adapter hypotheses are proved in
  `AdapterProofs1-4.v`; the check is evaluated by the kernel for the 23 families of `AccessMessage`.
* `Size.v`: minimal and exact sizes; `parse_nodiv`, `build_nodiv` (termination). `Local.parse_local`:
  a parse depends on consumed bytes only. `Deps.parse_agree/build_agree`: which keys of a context matter.
* `Sound.v`/`SoundAdapt.v`: what a parser returns is again in the domain of the builder (for C08).
* `Vocab.v`: the keys a decoded object can have (C51). `Shape.v`: the types and ranges of what a parser can
  return (C54). `Effects.v`: the object after a build (C17). `Recode.v`, `Carry*.v`: what may come back from
  Cap'n Proto and why it builds to the same bytes (C55).
* `FloatX.v`, `AdapterProofs3-4.v`: error analysis of binary64 for the scaled, timed and dated fields, uniform
  in the value (no enumeration of doubles).
* Finite tables (opcodes, the wire bytes of one-octet fields, declared names) are checked completely by
  computation in the kernel and then quantified over; nothing is bounded by a search depth.

## 4. Reading the theorems
* A false English claim is not dropped: the theorem suffixed `_refuted` exhibits a concrete counterexample (as the
  negation of the universal statement, or as a computation), and the strongest true version is proved beside it;
  `properties.jsonl` says "Precisely: ..." with that version. No theorem is suffixed `_partial`: nothing is left
  unproved of the precise versions.
* Beside each theorem an `Example ..._ex` instantiates its hypotheses with a concrete non-trivial message.
* Tables (`params`, `sub_params`, layout tables in P_layout.v, `schema_limits`) are hand-written specification; the
  `_coverage`/`_complete` theorems say that no message, sub-message or field is missing from them.

## 5. Wrong programs
`seeded/LOG.jsonl` records the edited models (section 5 of the task): for every edit the theorems that no longer
prove, and what was tightened.
