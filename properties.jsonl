{"id": "C01", "title": "Round trip of every access message", "statement": "If an object is a well-formed message (its opcode is a known opcode and its parameters lie in the documented domain of that message), then AccessMessage.build succeeds and AccessMessage.parse of the bytes returns an equal object (fields whose name starts with an underscore aside).", "quantifier": "every known opcode, every well-formed parameter object, lists of any length, every string", "why_tests_cant": "the domain of each message is infinite or astronomically large (lists, strings, 16-octet keys); tests try one vector per message", "anchors": ["bluetooth_mesh/messages/__init__.py:_AccessMessage", "bluetooth_mesh/messages/util.py:SwitchStruct"]}
{"id": "C02", "title": "Unknown opcodes are transparent", "statement": "Bytes whose opcode is valid but not known to the library parse to {opcode: number, params: remaining bytes}, and building that object gives back exactly the same bytes.", "quantifier": "every byte string beginning with a valid unknown opcode", "why_tests_cant": "unbounded payloads, millions of opcodes", "anchors": ["bluetooth_mesh/messages/__init__.py:_AccessMessage._parse", "bluetooth_mesh/messages/__init__.py:_AccessMessage._build"]}
{"id": "C03", "title": "Opcode field codec", "statement": "An opcode is written big-endian on 1, 2 or 3 bytes; reading it back followed by any bytes yields the same number and leaves exactly those bytes; the set of opcode encodings is prefix-free; 0x7F is rejected.", "quantifier": "every opcode of each of the three legal forms, every following byte string", "why_tests_cant": "16.7 million opcodes times any suffix", "anchors": ["bluetooth_mesh/messages/util.py:Opcode"]}
{"id": "C04", "title": "Known opcodes are unambiguous", "statement": "Every opcode of every message family is encoded in the form its first byte announces (1, 2 or 3 bytes), no two families share an opcode value or an opcode name, so dispatch by number or by name always reaches the family that declares it.", "quantifier": "every pair of opcode enumerations and every member", "why_tests_cant": "a new enum member anywhere can silently shadow another; no test compares all pairs", "anchors": ["bluetooth_mesh/messages/__init__.py:_AccessMessage.OPCODES", "bluetooth_mesh/messages/config.py:ConfigOpcode", "bluetooth_mesh/messages/util.py:Opcode"]}
{"id": "C05", "title": "Decoding always terminates", "statement": "AccessMessage.parse and every message parser returns a value or raises on every byte string; none can loop for ever.", "quantifier": "every finite byte string, every message declaration", "why_tests_cant": "GreedyRange loops for ever on an element that consumes nothing; termination for all inputs cannot be tested", "anchors": ["bluetooth_mesh/messages/util.py", "bluetooth_mesh/messages/sensor.py:SensorStatus", "bluetooth_mesh/messages/silvair/rrule_scheduler.py:Rules"]}
{"id": "C06", "title": "Parsing is local", "statement": "A successful parse of a message prefix depends only on the bytes it consumed: for every message without an open-ended tail the value read is the same whatever bytes follow, and the bytes that follow are left untouched.", "quantifier": "every well-formed object and every suffix", "why_tests_cant": "all suffixes", "anchors": ["bluetooth_mesh/messages/config.py", "bluetooth_mesh/messages/util.py:EmbeddedBitStruct"]}
{"id": "C07", "title": "Encoding is injective on well-formed messages", "statement": "Two well-formed messages that differ in any public field are never encoded to the same bytes.", "quantifier": "every pair of well-formed objects", "why_tests_cant": "quadratically many pairs of an infinite set", "anchors": ["bluetooth_mesh/messages/__init__.py:_AccessMessage._build"]}
{"id": "C08", "title": "Re-encoding what was decoded", "statement": "For every byte string, if AccessMessage.parse succeeds, building the result and parsing the output gives the same object again, for every message whose declaration has no lossy or asymmetric field; the messages that break this are listed. Precisely: this holds for every accepted byte string whose decoded object contains none of: a transition time of 4.3 s, a delay or uncertainty on the list of lossy ones, a transition time of 63 steps where unknown is not allowed, an IP address, an unknown (zero) time, a date in the last two days of year 9999, a sensor value whose announced length is not that of its property. Counterexamples are given for the 4.3 s, the scene status and the unknown time.", "quantifier": "every byte string accepted by the parser", "why_tests_cant": "all byte strings", "anchors": ["bluetooth_mesh/messages/__init__.py:_AccessMessage"]}
{"id": "C09", "title": "Building ignores key order and unknown keys", "statement": "Reordering the keys of the arguments (at any depth), or adding keys that the message does not mention, does not change the bytes built or whether building fails. Precisely: for every message whose parameters are a dictionary; the exceptions, each with a counterexample, are the first key of a relation item's extended_models_items, and an empty sensor value.", "quantifier": "every message, every object, every permutation and extension of its dictionaries", "why_tests_cant": "factorially many permutations", "anchors": ["bluetooth_mesh/messages/util.py:SwitchStruct._encode", "bluetooth_mesh/messages/util.py:NameAdapter"]}
{"id": "C10", "title": "Enum arguments: member, number or name", "statement": "Wherever an enumerated field is built, passing the member, its integer value or its name produces the same result; any other value is rejected. Precisely: holds for every enumerated field; a field that also selects the alternative of a switch (sub-opcode, rule id) is looked up by number only, so a name there loses or rejects the payload (counterexample).", "quantifier": "every enumeration, every value", "why_tests_cant": "all values of all enums, and all non-values", "anchors": ["bluetooth_mesh/messages/util.py:EnumAdapter"]}
{"id": "C11", "title": "Integer fields never wrap", "statement": "An IntN field accepts exactly the integers of its range, and raises on every other integer; the accepted integer is read back unchanged.", "quantifier": "every width, signedness and integer", "why_tests_cant": "all integers", "anchors": ["bluetooth_mesh/messages/config.py", "bluetooth_mesh/messages/silvair/debugV2.py"]}
{"id": "C12", "title": "Bit fields and 24/40-bit fields reject out-of-range integers", "statement": "Key indices and other bit fields, and Int24ul/5-byte fields, reject integers that do not fit instead of sending something else. Precisely: FALSE as stated, and replaced by what holds: a negative integer is rejected; an n-bit field sends the low n bits of any non-negative integer; an n-byte field sends an integer that fits exactly, sends the bytes of a wider integer out of order (up to 2n bytes) and rejects anything wider still.", "quantifier": "every integer", "why_tests_cant": "all integers", "anchors": ["bluetooth_mesh/messages/config.py:DoubleKeyIndex", "bluetooth_mesh/messages/time.py:TimeZoneSet", "bluetooth_mesh/messages/properties.py:TimeHour24"]}
{"id": "C13", "title": "Address classification", "statement": "get_address_type partitions the 16-bit addresses: unassigned is 0x0000, unicast 0x0001-0x7FFF, virtual 0x8000-0xBFFF, group 0xC000-0xFEFF, RFU 0xFF00-0xFFFB and the four fixed groups.", "quantifier": "every 16-bit address", "why_tests_cant": "65536 addresses against an independent table", "anchors": ["bluetooth_mesh/messages/config.py:get_address_type"]}
{"id": "C14", "title": "Address fields validate in both directions", "statement": "A field restricted to certain address types builds and parses exactly the addresses of these types: a wrong address makes both build and parse fail.", "quantifier": "every address, every restricted field", "why_tests_cant": "65536 addresses x fields x directions", "anchors": ["bluetooth_mesh/messages/config.py:AddressTypeValidator", "bluetooth_mesh/messages/config.py:SubscriptionAddress"]}
{"id": "C15", "title": "Key index lists: any list round-trips as a sorted list", "statement": "Building a list of key indices (each 0..4095, any length, any order, with repetitions) and parsing it back yields the sorted list.", "quantifier": "every list of key indices", "why_tests_cant": "unbounded lists", "anchors": ["bluetooth_mesh/messages/config.py:KeyIndicesAdapter", "bluetooth_mesh/messages/config.py:KeyIndices"]}
{"id": "C16", "title": "Key index packing", "statement": "A list of n key indices occupies exactly 3*(n/2) + 2*(n mod 2) bytes; a pair is packed little-endian in 3 bytes with the smaller index in the upper 12 bits.", "quantifier": "every list of key indices", "why_tests_cant": "unbounded lists", "anchors": ["bluetooth_mesh/messages/config.py:KeyIndices"]}
{"id": "C17", "title": "Building does not modify its argument", "statement": "build leaves the caller's object unchanged, so building the same object twice yields the same bytes. Precisely: build changes nothing, except that an opcode given by name is replaced by the member, that the date messages replace numbers of seconds by durations, and that the key list messages empty the caller's list of keys (so building them twice differs).", "quantifier": "every object", "why_tests_cant": "hidden mutation shows only on a second use", "anchors": ["bluetooth_mesh/messages/config.py:KeyIndicesAdapter._encode", "bluetooth_mesh/messages/time.py:TimeAdapter._encode", "bluetooth_mesh/messages/__init__.py:_AccessMessage._build"]}
{"id": "C18", "title": "Transition time: encoding picks the finest resolution and never exceeds the request", "statement": "A non-negative transition time is encoded with the finest step resolution that can hold it, decodes to at most the requested time, and is less than one step (of that resolution) short of it; times above 10.5 hours are rejected.", "quantifier": "every non-negative number (rational)", "why_tests_cant": "a continuum of times", "anchors": ["bluetooth_mesh/messages/generics.py:TransitionTimeAdapter"]}
{"id": "C19", "title": "Transition time: decoded values are fixed points", "statement": "Every transition-time byte decodes to a time which encodes to a byte that decodes to the same time. Precisely: for every byte but 43 (4.3 s, which is re-encoded as 42); of the decimal literals s/10, exactly the listed lossy ones lose a step.", "quantifier": "all 256 bytes", "why_tests_cant": "floating-point rounding breaks it for a few values only", "anchors": ["bluetooth_mesh/messages/generics.py:TransitionTimeAdapter"]}
{"id": "C20", "title": "Unknown transition time", "statement": "The value with 63 steps (unknown) is accepted exactly where the message allows it, when building and when parsing. Precisely: building rejects the unknown time exactly in the variant that does not allow it; parsing accepts it in both variants (counterexample).", "quantifier": "all bytes and both variants", "why_tests_cant": "all variants x all values", "anchors": ["bluetooth_mesh/messages/generics.py:TransitionTimeAdapter"]}
{"id": "C21", "title": "Delay", "statement": "A decoded delay is n*5 ms and re-encodes to the same byte; encoding never exceeds the requested delay and is less than 5 ms short of it. Precisely: the listed lossy delays (rounding of n*5/1000) re-encode to n-1; every other byte re-encodes to itself.", "quantifier": "all 256 bytes, every delay in 0..1.275 s", "why_tests_cant": "floating-point truncation hits only some values", "anchors": ["bluetooth_mesh/messages/generics.py:Delay"]}
{"id": "C22", "title": "Scaled property values round-trip", "statement": "For every property value with a decimal resolution, every raw wire integer decodes to a number that encodes to the same raw integer.", "quantifier": "every raw integer of each width (up to 2^32) and every resolution in use", "why_tests_cant": "4 billion raw values times 30 resolutions with binary floating point", "anchors": ["bluetooth_mesh/messages/util.py:DefaultCountValidator", "bluetooth_mesh/messages/properties.py"]}
{"id": "C23", "title": "Scaled property values: nearest raw value", "statement": "Encoding a number picks the raw integer nearest to value/resolution (error at most half a unit plus rounding noise), and the unknown value (largest raw integer) is used exactly for the maximal float. Precisely: for |value/resolution| up to 2^33 and integers up to 2^53; the largest raw value is also produced by the number that equals it (counterexample).", "quantifier": "every float value in range", "why_tests_cant": "a continuum of values", "anchors": ["bluetooth_mesh/messages/util.py:DefaultCountValidator"]}
{"id": "C24", "title": "Logarithmic fields", "statement": "Heartbeat count/period fields decode n to 2^(n-1) (0 to 0, 0xFF to infinity where allowed) and encoding any number x >= 1 up to the maximum gives the largest n with 2^(n-1) <= x; larger values and disallowed infinity are rejected.", "quantifier": "all wire values; every positive number", "why_tests_cant": "a continuum", "anchors": ["bluetooth_mesh/messages/util.py:LogAdapter"]}
{"id": "C25", "title": "Time Exponential 8", "statement": "Every Time Exponential 8 wire value decodes to 1.1^(n-64) seconds and re-encodes to the same wire value.", "quantifier": "all wire values 0..255", "why_tests_cant": "rounding to 4 decimals merges values", "anchors": ["bluetooth_mesh/messages/properties.py:TimeExponential8Validator"]}
{"id": "C26", "title": "Retransmit parameters", "statement": "Transmit count and interval round-trip for every legal combination; counts above 7, and intervals that are not a multiple of the step or out of range, are rejected. The step is 10 ms in network and relay messages, 50 ms in publications.", "quantifier": "every count and interval", "why_tests_cant": "all pairs of integers", "anchors": ["bluetooth_mesh/messages/config.py:RetransmitAdapter"]}
{"id": "C27", "title": "Bit-list fields as sets", "statement": "A feature set given as any iterable of bit numbers, in any order and with repetitions, is encoded to the same bytes and decodes to exactly the set of its in-range elements.", "quantifier": "every iterable of integers", "why_tests_cant": "2^16 sets times all orders", "anchors": ["bluetooth_mesh/messages/util.py:BitListAdapter"]}
{"id": "C28", "title": "Set-valued lists", "statement": "Set fields (rule ids, entry ids) decode the encoded elements to the same set whatever the iteration order used when building.", "quantifier": "every finite set and every iteration order", "why_tests_cant": "all orders", "anchors": ["bluetooth_mesh/messages/util.py:SetAdapter", "bluetooth_mesh/messages/silvair/rrule_scheduler.py:RulesListStatus"]}
{"id": "C29", "title": "MAC address text", "statement": "Six bytes decode to aa:bb:cc:dd:ee:ff text which encodes to the same six bytes; upper-case digits are accepted.", "quantifier": "all 2^48 addresses", "why_tests_cant": "2^48 values", "anchors": ["bluetooth_mesh/messages/util.py:MacAddressAdapter"]}
{"id": "C30", "title": "IP address text", "statement": "A decoded IP address can be passed back to build, and dotted text encodes to its four bytes. Precisely: dotted text encodes to its four bytes and any four bytes decode to that address; the decoded address object is NOT accepted by build, for every one of the 2^32 addresses.", "quantifier": "all 2^32 addresses", "why_tests_cant": "2^32 values; asymmetric types", "anchors": ["bluetooth_mesh/messages/util.py:IpAddressAdapter", "bluetooth_mesh/messages/silvair/gateway_config_server.py:ConfigurationSet"]}
{"id": "C31", "title": "Dates", "statement": "The 24-bit day count decodes to the calendar date that many days after 1970-01-01 and re-encodes to the same count; a {year, month, day} dict is encoded like the corresponding date; impossible dates are rejected; None goes out as day 0 and an int as that day count.", "quantifier": "every day count up to year 9999, every year/month/day", "why_tests_cant": "millions of dates, leap rules", "anchors": ["bluetooth_mesh/messages/properties.py:DateAdapter"]}
{"id": "C32", "title": "Time message round trip", "statement": "A Time Status with any date on the representable grid, offset multiple of 15 minutes, TAI-UTC delta and authority is decoded to the date that was encoded.", "quantifier": "all 2^40 seconds, 256 subseconds, all zones", "why_tests_cant": "2^70 combinations", "anchors": ["bluetooth_mesh/messages/time.py:TimeAdapter"]}
{"id": "C33", "title": "Time message never drops fields", "statement": "A Time Set/Status built from a complete object always carries all of its fields. Precisely: FALSE as stated: a complete object is rounded to 1/256 s; if the fraction rounds to a whole second (from 0.9983 s on, never up to 0.9978 s) only the five octets of the seconds are sent, which the parser rejects; otherwise all ten octets are sent.", "quantifier": "every complete time object", "why_tests_cant": "fails for a 2 ms window each second", "anchors": ["bluetooth_mesh/messages/time.py:TimeAdapter", "bluetooth_mesh/messages/time.py:Time"]}
{"id": "C34", "title": "Time zone and TAI-UTC delta", "statement": "Zone offsets are on a 15-minute grid: offset o is encoded as o/15min + 64 and decoded back; offsets off the grid are rejected. The TAI-UTC delta is encoded with bias 255 and decoded back. Precisely: a fractional delta is rejected; a delta below -255 s or an uncertainty above 2.55 s silently drops everything but the seconds (counterexample).", "quantifier": "all offsets and deltas", "why_tests_cant": "all integers", "anchors": ["bluetooth_mesh/messages/time.py:timedelta_to_mesh_time_zone_offset", "bluetooth_mesh/messages/time.py:mesh_tai_utc_delta_to_timedelta"]}
{"id": "C35", "title": "Emergency lighting test timestamp", "statement": "A test timestamp decodes to UTC = TAI - delta shown in the given zone and re-encodes to the same bytes.", "quantifier": "all 2^40 seconds, zones and deltas", "why_tests_cant": "2^60 combinations, float timestamps", "anchors": ["bluetooth_mesh/messages/silvair/emergency_lighting_test.py:TimestampAdapter"]}
{"id": "C36", "title": "Optional fields are all or nothing", "statement": "For messages with an optional tail, building an object with the optional fields emits the long form, without them the short form, and parsing recognises which one was sent by its length. A health status built without its list of faults carries an empty list.", "quantifier": "every well-formed object of each such message", "why_tests_cant": "all objects", "anchors": ["bluetooth_mesh/messages/util.py:NamedSelect"]}
{"id": "C37", "title": "Invalid optional fields are reported", "statement": "Building a message whose optional field has an invalid value raises an error. Precisely: FALSE as stated: the long form is tried first and on any error the short form is built; an error is raised if and only if both forms fail.", "quantifier": "every object with an invalid optional field", "why_tests_cant": "the silent fallback produces a valid shorter message", "anchors": ["bluetooth_mesh/messages/util.py:NamedSelect", "bluetooth_mesh/messages/config.py:ModelId"]}
{"id": "C38", "title": "Counts are computed, not trusted", "statement": "Count fields (models per element, element offsets, additional data) always equal the length of the list actually sent, whatever count the caller passes. Precisely: for every count field; the count of a model relation item has six bits, so it is the length modulo 64.", "quantifier": "every list and every caller-supplied count", "why_tests_cant": "all lists", "anchors": ["bluetooth_mesh/messages/config.py:CompositionDataPage0Element", "bluetooth_mesh/messages/config.py:MeshProfileEntry"]}
{"id": "C39", "title": "Text fields", "statement": "Strings are sent as UTF-8 and decoded back to the same string for every string that fits (fixed-size fields: without trailing NULs); strings that do not fit are rejected, never truncated; bytes that are not UTF-8 are rejected.", "quantifier": "every Unicode string, every field size", "why_tests_cant": "all strings", "anchors": ["bluetooth_mesh/messages/properties.py:FixedString", "bluetooth_mesh/messages/silvair/debug.py", "bluetooth_mesh/messages/silvair/debugV2.py:DebugV2Parameter"]}
{"id": "C40", "title": "Sensor data header", "statement": "The marshalled property id of sensor data uses format A for ids below 2048 and lengths 1..16 and format B otherwise when asked; header and value are recovered for every id and length in range. Precisely: format A with a length of 17..128 spills into the property id bits, in the way stated; other lengths and ids out of range are rejected.", "quantifier": "every format, length and property id", "why_tests_cant": "2^23 combinations", "anchors": ["bluetooth_mesh/messages/sensor.py:_SensorData"]}
{"id": "C41", "title": "Sensor data list", "statement": "A sensor status made of any number of well-formed entries, each carrying exactly its announced length, is decoded to the same entries. Precisely: an entry that cannot be decoded silently ends the list; a wrong announced length desynchronises the list (counterexample).", "quantifier": "every list of entries, known and unknown property ids", "why_tests_cant": "unbounded lists", "anchors": ["bluetooth_mesh/messages/sensor.py:SensorStatus"]}
{"id": "C42", "title": "Sensor descriptor list", "statement": "A sensor descriptor status made of any list of short and long descriptors decodes to the same list. Precisely: the descriptors come back if and only if the list is long descriptors followed by at most three short ones.", "quantifier": "every list of descriptors", "why_tests_cant": "ambiguity appears only for particular mixtures", "anchors": ["bluetooth_mesh/messages/sensor.py:SensorDescriptorStatus"]}
{"id": "C43", "title": "Property messages", "statement": "Generic property set/status, emergency lighting and light controller property messages carry the value of exactly the property they name, under the lower-case property name; an unknown id or a missing value is an error. Precisely: the one exception is AUTO_RESUME_MODE, whose missing value is sent as off.", "quantifier": "every property id and value", "why_tests_cant": "155 properties x all values", "anchors": ["bluetooth_mesh/messages/properties.py:PropertyMixin", "bluetooth_mesh/messages/generic/property.py"]}
{"id": "C44", "title": "Sensor settings with unknown properties", "statement": "A sensor setting whose property is not known is decoded to the list of its raw bytes and re-encoded to the same bytes. A known property carries its own value, under its name, and octets which are not such a value are an error, never raw bytes.", "quantifier": "every unknown property id and every byte string", "why_tests_cant": "all byte strings", "anchors": ["bluetooth_mesh/messages/sensor.py:SensorSettingRawMixin"]}
{"id": "C45", "title": "Reserved bits", "statement": "Padding and reserved bits are sent as zero and ignored on reception.", "quantifier": "all messages with padding, all bit patterns", "why_tests_cant": "all bit patterns", "anchors": ["bluetooth_mesh/messages/config.py:SingleKeyIndex", "bluetooth_mesh/messages/time.py:TAI_UTC_DeltaPaddedField"]}
{"id": "C46", "title": "Truncated messages are rejected or are the documented shorter form", "statement": "No proper prefix of the encoding of a fixed-layout message is accepted by its parser. Precisely: for every opcode and sub-opcode except the listed ones with an open-ended tail or a form told by its length; each of these does accept a proper prefix of some message.", "quantifier": "every well-formed object and every proper prefix", "why_tests_cant": "all prefixes of all messages", "anchors": ["bluetooth_mesh/messages/config.py", "bluetooth_mesh/messages/util.py:SwitchStruct"]}
{"id": "C47", "title": "Every known opcode carries its parameters", "statement": "The parameters of a message with a known opcode are never silently dropped, neither by build nor by parse. Precisely: FALSE for exactly the seven sensor opcodes the library lists but does not implement (column, series, cadence), whose parameters are dropped; true for every other opcode.", "quantifier": "every known opcode and sub-opcode", "why_tests_cant": "a missing case in a table is silent", "anchors": ["bluetooth_mesh/messages/sensor.py:SensorMessage", "bluetooth_mesh/messages/silvair/gateway_config_server.py:GatewayConfigParams", "bluetooth_mesh/messages/silvair/network_diagnostic_server.py"]}
{"id": "C48", "title": "Sub-opcodes are distinct", "statement": "Within each vendor message family distinct sub-opcode names have distinct values. Precisely: FALSE for BULK_LEC_PROPERTY_SET and BULK_LEC_PROPERTY_STATUS (both 0x06), true for every other family.", "quantifier": "every sub-opcode enumeration", "why_tests_cant": "all pairs", "anchors": ["bluetooth_mesh/messages/silvair/light_extended_controller.py:LightExtendedControllerSubOpcode"]}
{"id": "C49", "title": "AccessMessage agrees with the message families", "statement": "For a known opcode, AccessMessage parses and builds exactly like the family that owns the opcode; an opcode may be given as member, number or name.", "quantifier": "every object and byte string", "why_tests_cant": "all inputs x all families", "anchors": ["bluetooth_mesh/messages/__init__.py:_AccessMessage"]}
{"id": "C50", "title": "AccessMessage can be embedded in a stream", "statement": "Parsing an access message from a stream position other than 0 decodes the message found there. Precisely: FALSE for known opcodes: the message is decoded from the start of the stream, so that another message of the family found there is returned under the wrong opcode and anything else is rejected; true for unknown opcodes.", "quantifier": "every stream position", "why_tests_cant": "every prefix", "anchors": ["bluetooth_mesh/messages/__init__.py:_AccessMessage._parse"]}
{"id": "C51", "title": "Case conversion is invertible on field names", "statement": "Converting message objects to camelCase and back to snake_case restores every field name used by the library; octets become lower-case hexadecimal text that determines them. Precisely: for every name of the library but the listed ones (such as GATT_proxy and 'app key indices'), whose loss makes the message impossible to build (counterexamples).", "quantifier": "every declared field name; every dictionary", "why_tests_cant": "all nested dictionaries", "anchors": ["bluetooth_mesh/messages/util.py:camelcase", "bluetooth_mesh/messages/util.py:snakecase", "bluetooth_mesh/messages/util.py:to_case_dict"]}
{"id": "C52", "title": "Wire layout", "statement": "Each field of the configuration, generic, light, sensor and time messages is found at its documented byte/bit position.", "quantifier": "every value of every field", "why_tests_cant": "all values; documented layout is independent of the declarations", "anchors": ["bluetooth_mesh/messages/config.py", "bluetooth_mesh/messages/generic/onoff.py", "bluetooth_mesh/messages/light/ctl.py", "bluetooth_mesh/messages/time.py"]}
{"id": "C53", "title": "Cap'n Proto schema generation", "statement": "The generated schema numbers the members of each struct 0..n-1 without gaps or repetition and gives every member a distinct name. Precisely: the schema generated from the library's own 23 message families is valid (distinct struct names, identifiers, known types, dense ordinals, unions of two or more members). For arbitrary declarations: ordinals are 0..n-1 and names distinct in every emitted struct, except across the scopes of unnamed unions; a struct may be emitted twice and a member lost (counterexamples).", "quantifier": "every message declaration", "why_tests_cant": "all structs", "anchors": ["bluetooth_mesh/messages/capnproto/generator.py"]}
{"id": "C54", "title": "Decoded messages fit the generated Cap'n Proto schema", "statement": "A decoded access message, converted with to_camelcase_dict, can be assigned to the struct AccessMessage of the schema the generator writes: every key is a member of its struct, every value has the type and range of its field, no plain member is left unset and exactly one member of every union is set. Precisely: a decoded message fits if and only if it meets the 35 listed limits (unknown opcodes; heartbeat counts and periods over 255; unknown times; model publication messages, whose credential flag is an int against a Bool; IPv4Address objects; sub-messages the generator leaves out; RRule scheduler and gateway configuration payloads, whose union has no tag); each limit is reached by a message.", "quantifier": "every byte string AccessMessage decodes", "why_tests_cant": "the generator and the decoders are two separate readings of the declarations; the project's test tries 314 messages", "anchors": ["bluetooth_mesh/messages/capnproto/generator.py:generate", "bluetooth_mesh/messages/util.py:to_camelcase_dict", "bluetooth_mesh/messages/__init__.py:_AccessMessage"]}
{"id": "C55", "title": "Messages survive the way through Cap'n Proto", "statement": "A decoded message put into the generated schema's struct AccessMessage and read back (to_camelcase_dict, new_message, to_dict, to_snakecase_dict), when built, gives the bytes that building the decoded message itself gives, and these are received again as an equal message. Precisely: this holds for every message that fits (C54), can be re-sent (C08) and keeps its names (C51), except: transition times of 26 listed tenths of a second and 109 listed delays, which a Float32 member rounds below the step, so that they come back one step shorter; the messages carrying keys, labels or a hardware address, which come back as text of text and cannot be built; and the old form of the ARAP list size status. Each exception is reached by a message.", "quantifier": "every byte string AccessMessage decodes, and everything Cap'n Proto may return for it", "why_tests_cant": "the project's test tries 314 messages; field order, rounding to 32 bits, name conversion and binary data interact with every value", "anchors": ["bluetooth_mesh/messages/capnproto/generator.py:generate", "bluetooth_mesh/messages/util.py:to_camelcase_dict", "bluetooth_mesh/messages/util.py:to_snakecase_dict", "bluetooth_mesh/messages/__init__.py:_AccessMessage", "bluetooth_mesh/messages/tests/test_capnproto.py"]}
{"id": "C56", "title": "Enumerated fields carry the documented codes", "statement": "Wherever a decoded message holds a member of an enumeration (status codes, states, flags, property ids, locations, sub-opcodes, ...), the member's name and number are a pair of the documented code table of that place; and every code documented for a place is decoded, at that place, from some message.", "quantifier": "every byte string AccessMessage decodes; every place and code of the tables", "why_tests_cant": "138 places, some with hundreds of codes; a wrong number or a swapped name in one of them is seen only by a test of that very code", "anchors": ["bluetooth_mesh/messages/config.py:StatusCode", "bluetooth_mesh/messages/properties.py:PropertyID", "bluetooth_mesh/messages/__init__.py:_AccessMessage"]}
{"id": "C57", "title": "Variable-length contents follow their grammar", "statement": "For the messages whose contents have no fixed layout (RRULE scheduler and debug V2 sub-messages, composition data pages, subscription lists, scene register, property lists, sensor settings, ARAP list contents, network diagnostic subscription status): an object described by the message's grammar is sent as exactly the octets the grammar says; an object received obeys the grammar and its octets are the ones at the start of the message; and every octet string the grammar allows is accepted whole. Precisely: octets after the last complete item of an open-ended list, or after a complete message, are ignored on reception.", "quantifier": "every object, every octet string and every message of the list, with lists of any length", "why_tests_cant": "nesting and lengths are unbounded, and a wrong alternative, count or order inside a nested item shows only in messages that contain it", "anchors": ["bluetooth_mesh/messages/silvair/rrule_scheduler.py:RRuleSchedulerSubMessage", "bluetooth_mesh/messages/silvair/debugV2.py:DebugV2SubMessage", "bluetooth_mesh/messages/config.py:ConfigCompositionDataStatus", "bluetooth_mesh/messages/scene.py:SceneRegisterStatus"]}
{"id": "C58", "title": "Property values have the documented format", "statement": "For each of the 155 device properties and the 14 properties of the emergency lighting and light controller models: a value is sent, in every message that carries it, as the members of the property's documented format one after the other (octets, sign, step, \"not known\" code, exponential time, date, padded text), after the property's number; what is received follows that format; everything in the format is accepted; and a number that is not in the table is refused by the property messages. Precisely: a Coefficient is a whole number (Bluetooth: a 32 bit float), the runtime in a correlated color temperature range has the format of a luminous energy, signed members and the illuminance have no reachable not-known code, and octets after the value are ignored on reception.", "quantifier": "every property, every value and octet string, every message that carries property values (property messages, sensor settings, lists of sensor data)", "why_tests_cant": "169 properties in about 65 formats, each with up to 2^32 raw numbers per member; a property given the wrong format passes every test that only round-trips", "anchors": ["bluetooth_mesh/messages/properties.py:PropertyDict", "bluetooth_mesh/messages/properties.py:DefaultCountValidator", "bluetooth_mesh/messages/generic/property.py", "bluetooth_mesh/messages/sensor.py:SensorData", "bluetooth_mesh/messages/silvair/emergency_lighting.py:EmergencyLightingPropertyDict"]}
{"id": "C59", "title": "Gateway configurations say what their octets say", "statement": "A GATEWAY_CONFIGURATION_SET consists of the MTU, the MAC address, the server port, the reconnect interval, the length of the server address and the address (UTF-8, filled with NULs); then nothing, or the four octets of the DNS server, or DNS server, own address, gateway address and netmask. The form sent is the longest one whose members are all given; the form received is the longest one that fits the octets. A GATEWAY_CONFIGURATION_STATUS is the unsigned chip revision, the static form, a DHCP flag and a status code, and nothing else is accepted. A SERVER_ADDRESS_AND_PORT_NUMBER_SET is the port, the length of the address and the address, NUL-filled likewise. Precisely: the received addresses are address objects, which cannot be sent again (C30); octets after the longest form that fits are ignored on reception.", "quantifier": "every combination of given members, every value of each, every received octet string", "why_tests_cant": "three nested forms with a text of variable length; the number of combinations of present members, lengths and contents cannot be enumerated", "anchors": ["bluetooth_mesh/messages/silvair/gateway_config_server.py:ConfigurationSet", "bluetooth_mesh/messages/silvair/gateway_config_server.py:ConfigurationStatus", "bluetooth_mesh/messages/silvair/gateway_config_server.py:ConfigurationSetServerAddrAndPortNr", "bluetooth_mesh/messages/util.py:MacAddressAdapter", "bluetooth_mesh/messages/util.py:IpAddressAdapter"]}
{"id": "C60", "title": "Messages with documented values are accepted, others are not", "statement": "For every message and sub-message with a fixed layout, in each of its forms: if every field holds one of its documented values (a number of its width, within the field's documented limits if it has any: element addresses 0001-7FFF, publish addresses not virtual, subscription addresses groups but all-nodes, TTL and hop counts up to 127, health divisor up to 15, scene numbers not 0, 12-bit key indexes, codes of enumerated fields), then the octets are accepted on reception and the object is accepted for sending; conversely, a message that is accepted, in either direction, holds only documented values. Precisely: the one sub-message whose text length stands in another field (SERVER_ADDRESS_AND_PORT_NUMBER_SET) is left to C59; a member with a coding of its own (transition time, period, model id...) is acceptable if that coding accepts it (C15-C44); property ids in the listed query messages may be any number.", "quantifier": "every documented message, form, octet string and parameters object", "why_tests_cant": "a limit off by one, an address kind too many or a code refused concerns single values out of 2^8 to 2^16 of one of hundreds of fields", "anchors": ["bluetooth_mesh/messages/config.py:UnicastAddress", "bluetooth_mesh/messages/config.py:TTL", "bluetooth_mesh/messages/util.py:RangeValidator", "bluetooth_mesh/messages/scene.py", "bluetooth_mesh/messages/health.py:FastPeriodDivisor", "bluetooth_mesh/messages/silvair/network_diagnostic_server.py"]}
