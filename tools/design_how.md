C01: `Spec.message` at the declarations of the 23 families; master theorem, then dispatch in `Access.v`.
C02: Opcode codec over byte lists; `Access.v` falls back to GreedyBytes.
C03: Arithmetic on the three forms of `opcode_build`/`opcode_parse` (util.py:224-271); prefix-freeness by cases on the first byte.
C04: Complete computation over the generated opcode tables, lifted to "for all members".
C05: Induction over declarations: every GreedyRange element consumes at least one unit, so `Diverge` is unreachable for any byte string.
C06: `Local.parse_local` for declarations passing `loc`; the open-ended opcodes are listed and excluded; sub-messages in P_submsg.v.
C07: Corollary of the round trip.
C08: Soundness of parsers (Sound.v): the decoded object is in the builder's domain unless it contains one of the listed lossy values; then the master theorem.
C09: Induction over declarations: `build` only looks keys up (`same_argument` relates dictionaries up to order, at any depth).
C10: EnumAdapter, for every enumeration in use and every value; parse and build.
C11: Two's complement arithmetic, every width and every integer.
C12: Same for bit fields and BytesInteger; the claim is false, and the exact behaviour is characterised for every integer.
C13: Bit-mask arithmetic against interval specification, all 65536 addresses by arithmetic, not enumeration.
C14: Validators of config.py on both paths, for every address field in use (`Uses.all_uses`).
C15: Induction on the list (pairs), sorting permutation.
C16: Induction on the list; closed form of the length and of each packed triple.
C17: `Effects.after` models the three assignments; unchanged for every other declaration; the key list is refuted.
C18: binary64 multiplication and comparison, all non-negative rationals.
C19: Complete computation over the 256 bytes, plus the list of decimal literals.
C20: Adapter with and without the unknown value, all arguments.
C21: binary64 division/multiplication; complete over the 256 bytes, analytic over all requested delays.
C22: Error analysis uniform in the raw integer, for every resolution in use.
C23: Error analysis, nearest integer.
C24: Exact arithmetic of powers of two; every rational argument.
C25: Complete over the 256 wire values; encode analytic.
C26: Integer arithmetic, every count and interval. `P_transmit.v` carries this to the network transmit messages; the tables of C52 name the step of the fields.
C27: Bits of the two octets against set membership; any size and either order in `C27_any_size`.
C28: Induction on lists with permutations.
C29: Hexadecimal digits, every six-octet string.
C30: Decimal digits, every address.
C31: Calendar arithmetic: `civil_calendar` relates day counts to (y, m, d) for all years 1..9999.
C32: Microsecond arithmetic and binary64 rounding of the 1/256 s grid; every representable date.
C33: Which fractions round up to a whole second; exact window.
C34: Integer arithmetic on offsets and deltas.
C35: Arithmetic of the packed timestamp; every field value.
C36: For the table of messages with an optional tail: both forms, by the master theorem, and by length for received bytes; the list of faults that may be left out (P_defaults.v) by computation with symbolic fields.
C37: Select falls back: `error_iff` for every argument.
C38: Rebuild fields: the value passed by the caller is irrelevant; received lists have that length.
C39: UTF-8 encoder/decoder inverse on all code point lists; padded, pascal, greedy, counted strings.
C40: Header arithmetic for every id and length.
C41: Induction on the list of entries.
C42: Induction on the list of descriptors; exact characterisation.
C43: For every property message and every property: what build sends, what parse returns, what is rejected.
C44: Raw fallback; known properties. No value type of the property table can fail with KeyError when reading (a syntactic class of types, checked over the table by computation, and an induction), so the parser's `except KeyError` is never entered for a known property.
C45: Bit-level: every padding position is sent as zero and its value on the wire does not affect the decoded object.
C46: Size lemmas; list of exceptions with witnesses.
C47: Complete over the opcode table.
C48: Complete over the sub-opcode tables.
C49: `params` (196 rows) and `sub_params` (85 rows): an access message is its opcode followed by the parameters of that row. `P_contents.v` names the opcodes of the messages whose contents C32, C33, C40-C42 and C44 describe.
C50: The seek(0) of `__init__.py` modelled as parsing from the start of the stream.
C51: Case conversion over ASCII strings: general theorem for names of the regular form, computation over the declared vocabulary, induction over decoded objects; hexadecimal text by an inductive reading relation.
C52: Hand-written tables of documented positions (Doc.v/Layout.v) for all messages; build puts and parse takes each field there, for every value.
C53: Induction over arbitrary declaration trees for the generator; evaluation of the generator on the library's own declarations and a validity checker proved sound.
C54: `Shape.parse_shape` (induction over declarations) gives the type of every decoded value; compared with the generated schema; `fits` is an independent specification of what the schema accepts; an equivalence with the listed limits.
C55: `Carry.returns` specifies independently what `to_dict` may give back for a value put into a member (any order of keys, integers and texts as they are, floats rounded to the member's width, text assigned to Data as its UTF-8 bytes); `Recode.recode_mut` proves that building depends only on what the relation `rc` compares; `CarryRt.carry_mut` (induction over declarations) that what comes back is related by `rc` to what was decoded; the tables of declarations and the schema are compared by a computed check.
C56: Hand-written code tables and the places they are used at (`Codes.v`); `Shape.parse_shape` bounds what any decoded message can hold, compared with the tables; a sample message for every code of every place.
C57: `Grammar.v` is a hand-written grammar (`enc`: a relation between a value and its octets) of each message; `form` relates declarations to grammars, and induction over `form` proves that what is built, what is parsed and what is accepted are the grammar's (`sends_all`, `receives_all`, `accepts_all`). It also fixes the counts of C38 for the nested lists.
C58: `PropValues.v` is a hand-written table of the properties in the grammar language of C57, with quantities as rationals (within 2^-50) instead of floats; `PropForms.v` proves, type by type, that the declared value type has the documented format (from the proofs of C22, C25, C31 and C39), `PropTables.v` that the tables agree row by row, and the theorems carry that over to every message with a property value (C40, C41, C43, C44, C49).
C59: `P_gateway.v`: a specification of the octets of the three forms, written with numbers, dotted addresses, MAC texts and UTF-8 only; the four `_sent` theorems follow the fields of the struct (a missing member makes the longer form fail, so that Select takes the shorter one), the `_accepted` theorems the parser, and the `_received` theorems show that every accepted octet string is of the specified form (the tail has a form for every length). The same parts give SERVER_ADDRESS_AND_PORT_NUMBER_SET (`C59_address_*`).
C60: `Limits.v` is a hand-written table of the restricted fields (the codes are those of `Codes.v`); `LayoutAccept.v` proves the converse of C52's layout theorems (octets every item of which can be read are read, fields every one of which can be written are written); `P_limits.v` proves that a field's validators let through exactly the numbers the tables allow (address kinds joined into ranges, masks, bounds, enumerations), checks by computation that each of the fields of the documented messages carries the validator of its table row and no other, and lifts this to whole messages, forms and sub-messages in both directions.
