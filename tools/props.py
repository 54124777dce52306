#!/usr/bin/env python3
"""Source of properties.jsonl (one JSON object per line)."""
import json, os
M = "bluetooth_mesh/messages/"
P = []
def p(title, statement, quantifier, why, *anchors):
    P.append(dict(id="C%02d" % (len(P) + 1), title=title, statement=statement, quantifier=quantifier,
                  why_tests_cant=why, anchors=[M + a for a in anchors]))

p("Round trip of every access message",
  "If an object is a well-formed message (its opcode is a known opcode and its parameters lie in the documented domain of that message), then AccessMessage.build succeeds and AccessMessage.parse of the bytes returns an equal object (fields whose name starts with an underscore aside).",
  "every known opcode, every well-formed parameter object, lists of any length, every string",
  "the domain of each message is infinite or astronomically large (lists, strings, 16-octet keys); tests try one vector per message",
  "__init__.py:_AccessMessage", "util.py:SwitchStruct")
p("Unknown opcodes are transparent",
  "Bytes whose opcode is valid but not known to the library parse to {opcode: number, params: remaining bytes}, and building that object gives back exactly the same bytes.",
  "every byte string beginning with a valid unknown opcode", "unbounded payloads, millions of opcodes",
  "__init__.py:_AccessMessage._parse", "__init__.py:_AccessMessage._build")
p("Opcode field codec",
  "An opcode is written big-endian on 1, 2 or 3 bytes; reading it back followed by any bytes yields the same number and leaves exactly those bytes; the set of opcode encodings is prefix-free; 0x7F is rejected.",
  "every opcode of each of the three legal forms, every following byte string", "16.7 million opcodes times any suffix",
  "util.py:Opcode")
p("Known opcodes are unambiguous",
  "Every opcode of every message family is encoded in the form its first byte announces (1, 2 or 3 bytes), no two families share an opcode value or an opcode name, so dispatch by number or by name always reaches the family that declares it.",
  "every pair of opcode enumerations and every member", "a new enum member anywhere can silently shadow another; no test compares all pairs",
  "__init__.py:_AccessMessage.OPCODES", "config.py:ConfigOpcode", "util.py:Opcode")
p("Decoding always terminates",
  "AccessMessage.parse and every message parser returns a value or raises on every byte string; none can loop for ever.",
  "every finite byte string, every message declaration", "GreedyRange loops for ever on an element that consumes nothing; termination for all inputs cannot be tested",
  "util.py", "sensor.py:SensorStatus", "silvair/rrule_scheduler.py:Rules")
p("Parsing is local",
  "A successful parse of a message prefix depends only on the bytes it consumed: for every message without an open-ended tail the value read is the same whatever bytes follow, and the bytes that follow are left untouched.",
  "every well-formed object and every suffix", "all suffixes",
  "config.py", "util.py:EmbeddedBitStruct")
p("Encoding is injective on well-formed messages",
  "Two well-formed messages that differ in any public field are never encoded to the same bytes.",
  "every pair of well-formed objects", "quadratically many pairs of an infinite set",
  "__init__.py:_AccessMessage._build")
p("Re-encoding what was decoded",
  "For every byte string, if AccessMessage.parse succeeds, building the result and parsing the output gives the same object again, for every message whose declaration has no lossy or asymmetric field; the messages that break this are listed.",
  "every byte string accepted by the parser", "all byte strings",
  "__init__.py:_AccessMessage")
p("Building ignores key order and unknown keys",
  "Reordering the keys of the arguments (at any depth), or adding keys that the message does not mention, does not change the bytes built or whether building fails.",
  "every message, every object, every permutation and extension of its dictionaries", "factorially many permutations",
  "util.py:SwitchStruct._encode", "util.py:NameAdapter")
p("Enum arguments: member, number or name",
  "Wherever an enumerated field is built, passing the member, its integer value or its name produces the same result; any other value is rejected.",
  "every enumeration, every value", "all values of all enums, and all non-values",
  "util.py:EnumAdapter")
p("Integer fields never wrap",
  "An IntN field accepts exactly the integers of its range, and raises on every other integer; the accepted integer is read back unchanged.",
  "every width, signedness and integer", "all integers",
  "config.py", "silvair/debugV2.py")
p("Bit fields and 24/40-bit fields reject out-of-range integers",
  "Key indices and other bit fields, and Int24ul/5-byte fields, reject integers that do not fit instead of sending something else.",
  "every integer", "all integers", "config.py:DoubleKeyIndex", "time.py:TimeZoneSet", "properties.py:TimeHour24")
p("Address classification",
  "get_address_type partitions the 16-bit addresses: unassigned is 0x0000, unicast 0x0001-0x7FFF, virtual 0x8000-0xBFFF, group 0xC000-0xFEFF, RFU 0xFF00-0xFFFB and the four fixed groups.",
  "every 16-bit address", "65536 addresses against an independent table",
  "config.py:get_address_type")
p("Address fields validate in both directions",
  "A field restricted to certain address types builds and parses exactly the addresses of these types: a wrong address makes both build and parse fail.",
  "every address, every restricted field", "65536 addresses x fields x directions",
  "config.py:AddressTypeValidator", "config.py:SubscriptionAddress")
p("Key index lists: any list round-trips as a sorted list",
  "Building a list of key indices (each 0..4095, any length, any order, with repetitions) and parsing it back yields the sorted list.",
  "every list of key indices", "unbounded lists", "config.py:KeyIndicesAdapter", "config.py:KeyIndices")
p("Key index packing",
  "A list of n key indices occupies exactly 3*(n/2) + 2*(n mod 2) bytes; a pair is packed little-endian in 3 bytes with the smaller index in the upper 12 bits.",
  "every list of key indices", "unbounded lists", "config.py:KeyIndices")
p("Building does not modify its argument",
  "build leaves the caller's object unchanged, so building the same object twice yields the same bytes.",
  "every object", "hidden mutation shows only on a second use", "config.py:KeyIndicesAdapter._encode", "time.py:TimeAdapter._encode", "__init__.py:_AccessMessage._build")
p("Transition time: encoding picks the finest resolution and never exceeds the request",
  "A non-negative transition time is encoded with the finest step resolution that can hold it, decodes to at most the requested time, and is less than one step (of that resolution) short of it; times above 10.5 hours are rejected.",
  "every non-negative number (rational)", "a continuum of times", "generics.py:TransitionTimeAdapter")
p("Transition time: decoded values are fixed points",
  "Every transition-time byte decodes to a time which encodes to a byte that decodes to the same time.",
  "all 256 bytes", "floating-point rounding breaks it for a few values only", "generics.py:TransitionTimeAdapter")
p("Unknown transition time",
  "The value with 63 steps (unknown) is accepted exactly where the message allows it, when building and when parsing.",
  "all bytes and both variants", "all variants x all values", "generics.py:TransitionTimeAdapter")
p("Delay",
  "A decoded delay is n*5 ms and re-encodes to the same byte; encoding never exceeds the requested delay and is less than 5 ms short of it.",
  "all 256 bytes, every delay in 0..1.275 s", "floating-point truncation hits only some values", "generics.py:Delay")
p("Scaled property values round-trip",
  "For every property value with a decimal resolution, every raw wire integer decodes to a number that encodes to the same raw integer.",
  "every raw integer of each width (up to 2^32) and every resolution in use", "4 billion raw values times 30 resolutions with binary floating point",
  "util.py:DefaultCountValidator", "properties.py")
p("Scaled property values: nearest raw value",
  "Encoding a number picks the raw integer nearest to value/resolution (error at most half a unit plus rounding noise), and the unknown value (largest raw integer) is used exactly for the maximal float.",
  "every float value in range", "a continuum of values", "util.py:DefaultCountValidator")
p("Logarithmic fields",
  "Heartbeat count/period fields decode n to 2^(n-1) (0 to 0, 0xFF to infinity where allowed) and encoding any number x >= 1 up to the maximum gives the largest n with 2^(n-1) <= x; larger values and disallowed infinity are rejected.",
  "all wire values; every positive number", "a continuum", "util.py:LogAdapter")
p("Time Exponential 8",
  "Every Time Exponential 8 wire value decodes to 1.1^(n-64) seconds and re-encodes to the same wire value.",
  "all wire values 0..255", "rounding to 4 decimals merges values", "properties.py:TimeExponential8Validator")
p("Retransmit parameters",
  "Transmit count and interval round-trip for every legal combination; counts above 7, and intervals that are not a multiple of the step or out of range, are rejected. The step is 10 ms in network and relay messages, 50 ms in publications.",
  "every count and interval", "all pairs of integers", "config.py:RetransmitAdapter")
p("Bit-list fields as sets",
  "A feature set given as any iterable of bit numbers, in any order and with repetitions, is encoded to the same bytes and decodes to exactly the set of its in-range elements.",
  "every iterable of integers", "2^16 sets times all orders", "util.py:BitListAdapter")
p("Set-valued lists",
  "Set fields (rule ids, entry ids) decode the encoded elements to the same set whatever the iteration order used when building.",
  "every finite set and every iteration order", "all orders", "util.py:SetAdapter", "silvair/rrule_scheduler.py:RulesListStatus")
p("MAC address text",
  "Six bytes decode to aa:bb:cc:dd:ee:ff text which encodes to the same six bytes; upper-case digits are accepted.",
  "all 2^48 addresses", "2^48 values", "util.py:MacAddressAdapter")
p("IP address text",
  "A decoded IP address can be passed back to build, and dotted text encodes to its four bytes.",
  "all 2^32 addresses", "2^32 values; asymmetric types", "util.py:IpAddressAdapter", "silvair/gateway_config_server.py:ConfigurationSet")
p("Dates",
  "The 24-bit day count decodes to the calendar date that many days after 1970-01-01 and re-encodes to the same count; a {year, month, day} dict is encoded like the corresponding date; impossible dates are rejected; None goes out as day 0 and an int as that day count.",
  "every day count up to year 9999, every year/month/day", "millions of dates, leap rules", "properties.py:DateAdapter")
p("Time message round trip",
  "A Time Status with any date on the representable grid, offset multiple of 15 minutes, TAI-UTC delta and authority is decoded to the date that was encoded.",
  "all 2^40 seconds, 256 subseconds, all zones", "2^70 combinations", "time.py:TimeAdapter")
p("Time message never drops fields",
  "A Time Set/Status built from a complete object always carries all of its fields.",
  "every complete time object", "fails for a 2 ms window each second", "time.py:TimeAdapter", "time.py:Time")
p("Time zone and TAI-UTC delta",
  "Zone offsets are on a 15-minute grid: offset o is encoded as o/15min + 64 and decoded back; offsets off the grid are rejected. The TAI-UTC delta is encoded with bias 255 and decoded back.",
  "all offsets and deltas", "all integers", "time.py:timedelta_to_mesh_time_zone_offset", "time.py:mesh_tai_utc_delta_to_timedelta")
p("Emergency lighting test timestamp",
  "A test timestamp decodes to UTC = TAI - delta shown in the given zone and re-encodes to the same bytes.",
  "all 2^40 seconds, zones and deltas", "2^60 combinations, float timestamps", "silvair/emergency_lighting_test.py:TimestampAdapter")
p("Optional fields are all or nothing",
  "For messages with an optional tail, building an object with the optional fields emits the long form, without them the short form, and parsing recognises which one was sent by its length. A health status built without its list of faults carries an empty list.",
  "every well-formed object of each such message", "all objects", "util.py:NamedSelect")
p("Invalid optional fields are reported",
  "Building a message whose optional field has an invalid value raises an error.",
  "every object with an invalid optional field", "the silent fallback produces a valid shorter message", "util.py:NamedSelect", "config.py:ModelId")
p("Counts are computed, not trusted",
  "Count fields (models per element, element offsets, additional data) always equal the length of the list actually sent, whatever count the caller passes.",
  "every list and every caller-supplied count", "all lists", "config.py:CompositionDataPage0Element", "config.py:MeshProfileEntry")
p("Text fields",
  "Strings are sent as UTF-8 and decoded back to the same string for every string that fits (fixed-size fields: without trailing NULs); strings that do not fit are rejected, never truncated; bytes that are not UTF-8 are rejected.",
  "every Unicode string, every field size", "all strings", "properties.py:FixedString", "silvair/debug.py", "silvair/debugV2.py:DebugV2Parameter")
p("Sensor data header",
  "The marshalled property id of sensor data uses format A for ids below 2048 and lengths 1..16 and format B otherwise when asked; header and value are recovered for every id and length in range.",
  "every format, length and property id", "2^23 combinations", "sensor.py:_SensorData")
p("Sensor data list",
  "A sensor status made of any number of well-formed entries, each carrying exactly its announced length, is decoded to the same entries.",
  "every list of entries, known and unknown property ids", "unbounded lists", "sensor.py:SensorStatus")
p("Sensor descriptor list",
  "A sensor descriptor status made of any list of short and long descriptors decodes to the same list.",
  "every list of descriptors", "ambiguity appears only for particular mixtures", "sensor.py:SensorDescriptorStatus")
p("Property messages",
  "Generic property set/status, emergency lighting and light controller property messages carry the value of exactly the property they name, under the lower-case property name; an unknown id or a missing value is an error.",
  "every property id and value", "155 properties x all values", "properties.py:PropertyMixin", "generic/property.py")
p("Sensor settings with unknown properties",
  "A sensor setting whose property is not known is decoded to the list of its raw bytes and re-encoded to the same bytes. A known property carries its own value, under its name, and octets which are not such a value are an error, never raw bytes.",
  "every unknown property id and every byte string", "all byte strings", "sensor.py:SensorSettingRawMixin")
p("Reserved bits",
  "Padding and reserved bits are sent as zero and ignored on reception.",
  "all messages with padding, all bit patterns", "all bit patterns", "config.py:SingleKeyIndex", "time.py:TAI_UTC_DeltaPaddedField")
p("Truncated messages are rejected or are the documented shorter form",
  "No proper prefix of the encoding of a fixed-layout message is accepted by its parser.",
  "every well-formed object and every proper prefix", "all prefixes of all messages", "config.py", "util.py:SwitchStruct")
p("Every known opcode carries its parameters",
  "The parameters of a message with a known opcode are never silently dropped, neither by build nor by parse.",
  "every known opcode and sub-opcode", "a missing case in a table is silent", "sensor.py:SensorMessage", "silvair/gateway_config_server.py:GatewayConfigParams", "silvair/network_diagnostic_server.py")
p("Sub-opcodes are distinct",
  "Within each vendor message family distinct sub-opcode names have distinct values.",
  "every sub-opcode enumeration", "all pairs", "silvair/light_extended_controller.py:LightExtendedControllerSubOpcode")
p("AccessMessage agrees with the message families",
  "For a known opcode, AccessMessage parses and builds exactly like the family that owns the opcode; an opcode may be given as member, number or name.",
  "every object and byte string", "all inputs x all families", "__init__.py:_AccessMessage")
p("AccessMessage can be embedded in a stream",
  "Parsing an access message from a stream position other than 0 decodes the message found there.",
  "every stream position", "every prefix", "__init__.py:_AccessMessage._parse")
p("Case conversion is invertible on field names",
  "Converting message objects to camelCase and back to snake_case restores every field name used by the library; octets become lower-case hexadecimal text that determines them.",
  "every declared field name; every dictionary", "all nested dictionaries", "util.py:camelcase", "util.py:snakecase", "util.py:to_case_dict")
p("Wire layout",
  "Each field of the configuration, generic, light, sensor and time messages is found at its documented byte/bit position.",
  "every value of every field", "all values; documented layout is independent of the declarations", "config.py", "generic/onoff.py", "light/ctl.py", "time.py")
p("Cap'n Proto schema generation",
  "The generated schema numbers the members of each struct 0..n-1 without gaps or repetition and gives every member a distinct name.",
  "every message declaration", "all structs", "capnproto/generator.py")
# What the code really does, where the property as a user would state it fails at the edges: appended to the statement.
p("Decoded messages fit the generated Cap'n Proto schema",
  "A decoded access message, converted with to_camelcase_dict, can be assigned to the struct AccessMessage of the schema the generator writes: every key is a member of its struct, every value has the type and range of its field, no plain member is left unset and exactly one member of every union is set.",
  "every byte string AccessMessage decodes",
  "the generator and the decoders are two separate readings of the declarations; the project's test tries 314 messages", "capnproto/generator.py:generate", "util.py:to_camelcase_dict", "__init__.py:_AccessMessage")
p("Messages survive the way through Cap'n Proto",
  "A decoded message put into the generated schema's struct AccessMessage and read back (to_camelcase_dict, new_message, to_dict, to_snakecase_dict), when built, gives the bytes that building the decoded message itself gives, and these are received again as an equal message.",
  "every byte string AccessMessage decodes, and everything Cap'n Proto may return for it",
  "the project's test tries 314 messages; field order, rounding to 32 bits, name conversion and binary data interact with every value", "capnproto/generator.py:generate", "util.py:to_camelcase_dict", "util.py:to_snakecase_dict", "__init__.py:_AccessMessage", "tests/test_capnproto.py")
p("Enumerated fields carry the documented codes",
  "Wherever a decoded message holds a member of an enumeration (status codes, states, flags, property ids, locations, sub-opcodes, ...), the member's name and number are a pair of the documented code table of that place; and every code documented for a place is decoded, at that place, from some message.",
  "every byte string AccessMessage decodes; every place and code of the tables",
  "138 places, some with hundreds of codes; a wrong number or a swapped name in one of them is seen only by a test of that very code", "config.py:StatusCode", "properties.py:PropertyID", "__init__.py:_AccessMessage")
p("Variable-length contents follow their grammar",
  "For the messages whose contents have no fixed layout (RRULE scheduler and debug V2 sub-messages, composition data pages, subscription lists, scene register, property lists, sensor settings, ARAP list contents, network diagnostic subscription status): an object described by the message's grammar is sent as exactly the octets the grammar says; an object received obeys the grammar and its octets are the ones at the start of the message; and every octet string the grammar allows is accepted whole.",
  "every object, every octet string and every message of the list, with lists of any length",
  "nesting and lengths are unbounded, and a wrong alternative, count or order inside a nested item shows only in messages that contain it", "silvair/rrule_scheduler.py:RRuleSchedulerSubMessage", "silvair/debugV2.py:DebugV2SubMessage", "config.py:ConfigCompositionDataStatus", "scene.py:SceneRegisterStatus")
p("Property values have the documented format",
  "For each of the 155 device properties and the 14 properties of the emergency lighting and light controller models: a value is sent, in every message that carries it, as the members of the property's documented format one after the other (octets, sign, step, \"not known\" code, exponential time, date, padded text), after the property's number; what is received follows that format; everything in the format is accepted; and a number that is not in the table is refused by the property messages.",
  "every property, every value and octet string, every message that carries property values (property messages, sensor settings, lists of sensor data)",
  "169 properties in about 65 formats, each with up to 2^32 raw numbers per member; a property given the wrong format passes every test that only round-trips", "properties.py:PropertyDict", "properties.py:DefaultCountValidator", "generic/property.py", "sensor.py:SensorData", "silvair/emergency_lighting.py:EmergencyLightingPropertyDict")
p("Gateway configurations say what their octets say",
  "A GATEWAY_CONFIGURATION_SET consists of the MTU, the MAC address, the server port, the reconnect interval, the length of the server address and the address (UTF-8, filled with NULs); then nothing, or the four octets of the DNS server, or DNS server, own address, gateway address and netmask. The form sent is the longest one whose members are all given; the form received is the longest one that fits the octets. A GATEWAY_CONFIGURATION_STATUS is the unsigned chip revision, the static form, a DHCP flag and a status code, and nothing else is accepted. A SERVER_ADDRESS_AND_PORT_NUMBER_SET is the port, the length of the address and the address, NUL-filled likewise.",
  "every combination of given members, every value of each, every received octet string",
  "three nested forms with a text of variable length; the number of combinations of present members, lengths and contents cannot be enumerated",
  "silvair/gateway_config_server.py:ConfigurationSet", "silvair/gateway_config_server.py:ConfigurationStatus", "silvair/gateway_config_server.py:ConfigurationSetServerAddrAndPortNr", "util.py:MacAddressAdapter", "util.py:IpAddressAdapter")
p("Messages with documented values are accepted, others are not",
  "For every message and sub-message with a fixed layout, in each of its forms: if every field holds one of its documented values (a number of its width, within the field's documented limits if it has any: element addresses 0001-7FFF, publish addresses not virtual, subscription addresses groups but all-nodes, TTL and hop counts up to 127, health divisor up to 15, scene numbers not 0, 12-bit key indexes, codes of enumerated fields), then the octets are accepted on reception and the object is accepted for sending; conversely, a message that is accepted, in either direction, holds only documented values.",
  "every documented message, form, octet string and parameters object",
  "a limit off by one, an address kind too many or a code refused concerns single values out of 2^8 to 2^16 of one of hundreds of fields",
  "config.py:UnicastAddress", "config.py:TTL", "util.py:RangeValidator", "scene.py", "health.py:FastPeriodDivisor", "silvair/network_diagnostic_server.py")
EXACT = {
 "C60": "the one sub-message whose text length stands in another field (SERVER_ADDRESS_AND_PORT_NUMBER_SET) is left to C59; a member with a coding of its own (transition time, period, model id...) is acceptable if that coding accepts it (C15-C44); property ids in the listed query messages may be any number.",
 "C59": "the received addresses are address objects, which cannot be sent again (C30); octets after the longest form that fits are ignored on reception.",
 "C58": "a Coefficient is a whole number (Bluetooth: a 32 bit float), the runtime in a correlated color temperature range has the format of a luminous energy, signed members and the illuminance have no reachable not-known code, and octets after the value are ignored on reception.",
 "C57": "octets after the last complete item of an open-ended list, or after a complete message, are ignored on reception.",
 "C55": "this holds for every message that fits (C54), can be re-sent (C08) and keeps its names (C51), except: transition times of 26 listed tenths of a second and 109 listed delays, which a Float32 member rounds below the step, so that they come back one step shorter; the messages carrying keys, labels or a hardware address, which come back as text of text and cannot be built; and the old form of the ARAP list size status. Each exception is reached by a message.",
 "C08": "this holds for every accepted byte string whose decoded object contains none of: a transition time of 4.3 s, a delay or uncertainty on the list of lossy ones, a transition time of 63 steps where unknown is not allowed, an IP address, an unknown (zero) time, a date in the last two days of year 9999, a sensor value whose announced length is not that of its property. Counterexamples are given for the 4.3 s, the scene status and the unknown time.",
 "C09": "for every message whose parameters are a dictionary; the exceptions, each with a counterexample, are the first key of a relation item's extended_models_items, and an empty sensor value.",
 "C10": "holds for every enumerated field; a field that also selects the alternative of a switch (sub-opcode, rule id) is looked up by number only, so a name there loses or rejects the payload (counterexample).",
 "C12": "FALSE as stated, and replaced by what holds: a negative integer is rejected; an n-bit field sends the low n bits of any non-negative integer; an n-byte field sends an integer that fits exactly, sends the bytes of a wider integer out of order (up to 2n bytes) and rejects anything wider still.",
 "C17": "build changes nothing, except that an opcode given by name is replaced by the member, that the date messages replace numbers of seconds by durations, and that the key list messages empty the caller's list of keys (so building them twice differs).",
 "C19": "for every byte but 43 (4.3 s, which is re-encoded as 42); of the decimal literals s/10, exactly the listed lossy ones lose a step.",
 "C20": "building rejects the unknown time exactly in the variant that does not allow it; parsing accepts it in both variants (counterexample).",
 "C21": "the listed lossy delays (rounding of n*5/1000) re-encode to n-1; every other byte re-encodes to itself.",
 "C23": "for |value/resolution| up to 2^33 and integers up to 2^53; the largest raw value is also produced by the number that equals it (counterexample).",
 "C30": "dotted text encodes to its four bytes and any four bytes decode to that address; the decoded address object is NOT accepted by build, for every one of the 2^32 addresses.",
 "C33": "FALSE as stated: a complete object is rounded to 1/256 s; if the fraction rounds to a whole second (from 0.9983 s on, never up to 0.9978 s) only the five octets of the seconds are sent, which the parser rejects; otherwise all ten octets are sent.",
 "C34": "a fractional delta is rejected; a delta below -255 s or an uncertainty above 2.55 s silently drops everything but the seconds (counterexample).",
 "C37": "FALSE as stated: the long form is tried first and on any error the short form is built; an error is raised if and only if both forms fail.",
 "C38": "for every count field; the count of a model relation item has six bits, so it is the length modulo 64.",
 "C40": "format A with a length of 17..128 spills into the property id bits, in the way stated; other lengths and ids out of range are rejected.",
 "C41": "an entry that cannot be decoded silently ends the list; a wrong announced length desynchronises the list (counterexample).",
 "C42": "the descriptors come back if and only if the list is long descriptors followed by at most three short ones.",
 "C43": "the one exception is AUTO_RESUME_MODE, whose missing value is sent as off.",
 "C46": "for every opcode and sub-opcode except the listed ones with an open-ended tail or a form told by its length; each of these does accept a proper prefix of some message.",
 "C47": "FALSE for exactly the seven sensor opcodes the library lists but does not implement (column, series, cadence), whose parameters are dropped; true for every other opcode.",
 "C48": "FALSE for BULK_LEC_PROPERTY_SET and BULK_LEC_PROPERTY_STATUS (both 0x06), true for every other family.",
 "C50": "FALSE for known opcodes: the message is decoded from the start of the stream, so that another message of the family found there is returned under the wrong opcode and anything else is rejected; true for unknown opcodes.",
 "C51": "for every name of the library but the listed ones (such as GATT_proxy and 'app key indices'), whose loss makes the message impossible to build (counterexamples).",
 "C54": "a decoded message fits if and only if it meets the 35 listed limits (unknown opcodes; heartbeat counts and periods over 255; unknown times; model publication messages, whose credential flag is an int against a Bool; IPv4Address objects; sub-messages the generator leaves out; RRule scheduler and gateway configuration payloads, whose union has no tag); each limit is reached by a message.",
 "C53": "the schema generated from the library's own 23 message families is valid (distinct struct names, identifiers, known types, dense ordinals, unions of two or more members). For arbitrary declarations: ordinals are 0..n-1 and names distinct in every emitted struct, except across the scopes of unnamed unions; a struct may be emitted twice and a member lost (counterexamples).",
}
for x in P:
    if x["id"] in EXACT:
        x["statement"] += " Precisely: " + EXACT[x["id"]]
out = os.path.join(os.path.dirname(os.path.abspath(__file__)), "..", "properties.jsonl")
with open(out, "w") as f:
    for x in P:
        f.write(json.dumps(x) + "\n")
print(len(P))
