STATUS = {
 "C55": ("proved", "C55_recode, C55_received and C55_same_bytes for every message outside the listed exceptions, each of which is reached (C55_limits_reached, C55_steps_lost, C55_delays_lost; 43 tenths is already an exception of C08)"),
 "C54": ("proved", "C54_fits is an equivalence; the first sentence is false for the messages that break a limit (C54_limits_reached)"),
 "C12": ("proved", "the first sentence is refuted (C12_out_of_range_rejected_refuted); the theorems prove the precise version, for every integer and every width"),
 "C33": ("proved", "the first sentence is refuted (C33_complete_message_refuted); C33_complete_or_seconds proves the precise version for every complete object"),
 "C30": ("proved", "the re-encoding half is refuted for every address (C30_reencode_refuted), the text half proved"),
 "C37": ("proved", "the first sentence is refuted; C37_error_iff proves the precise version"),
 "C46": ("proved", "the exceptions are listed and shown to be real (C46_exceptions_are_real, C46_sub_exceptions_are_real)"),
 "C47": ("proved", "refuted for exactly seven opcodes (C47_dropped_exactly), proved for the others"),
 "C48": ("proved", "refuted for one pair (C48_sub_opcodes_distinct_refuted), proved for every other family"),
 "C50": ("proved", "refuted for known opcodes (C50_embedded_refuted); the theorems say what is decoded instead"),
}
