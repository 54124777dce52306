(* generated by tools/testnames.py: what CPython answers *)
From Verif Require Import PyVal Adapters Names.

Definition name_vectors : list (string * string * string) := [
  ("GATT_proxy", "gattProxy", "proxy")%string;
  ("app key indices", "appKeyIndices", "app_key_indices")%string;
  ("resolution_100_ms", "resolution100Ms", "resolution_100_ms")%string;
  ("a_b", "aB", "a_b")%string;
  ("a_b_c", "aBC", "a_b_c")%string;
  ("value_a_b", "valueAB", "value_a_b")%string;
  ("size_2d", "size2D", "size_2d")%string;
  ("_rfu", "Rfu", "rfu")%string;
  ("", "", "")%string;
  ("_", "", "")%string;
  ("__", "", "")%string;
  ("HTTPServer", "httpserver", "http_server")%string;
  ("ABCd1E", "abcd1e", "ab_cd1_e")%string;
  ("99zA", "99za", "99z_a")%string;
  ("9B09", "9b09", "9_b09")%string;
  ("--99 Z_ ", "--99Z", "99")%string;
  ("0B0-ab", "0b0-ab", "0_b0_ab")%string;
  ("9", "9", "9")%string;
  ("a1 zZ", "a1Zz", "a1_z_z")%string;
  ("BZ1... A..", "bz1...A..", "bz_1_a")%string;
  ("1", "1", "1")%string;
  ("1aa", "1aa", "1aa")%string;
  (".-", ".-", "")%string;
  ("bz91a 00AZ", "bz91a00Az", "bz91a_00_az")%string;
  ("19", "19", "19")%string;
  ("_Z1", "Z1", "z1")%string;
  ("b9.1 a09", "b9.1A09", "b9_1_a09")%string;
  ("1", "1", "1")%string;
  (" 9b9.B91 ", "9B9.B91", "9b9_b91")%string;
  ("Z", "z", "z")%string;
  ("9b__09B", "9b09B", "9b_09_b")%string;
  ("-1_1", "-11", "1_1")%string;
  (".9aZ", ".9az", "9a_z")%string;
  ("B9 _1A9Z", "b91A9Z", "b9_1_a9_z")%string;
  ("BB1.z9 0.zbB", "bb1.z90.Zbb", "bb_1_z9_0_zb_b")%string;
  ("-a  z 0-", "-aZ0-", "a_z_0")%string;
  ("99", "99", "99")%string;
  (".B_-_ 1-1", ".b-1-1", "1_1")%string;
  ("0a .-Bz.", "0a.-Bz.", "0a_bz")%string;
  (".00 0ZZ0_  ", ".000Zz0", "00_0_zz_0")%string;
  ("9109-_", "9109-", "9109")%string;
  ("1_baz0", "1Baz0", "1_baz0")%string;
  (".0Ba", ".0ba", "0_ba")%string;
  (".9Za9Ba", ".9za9ba", "9_za9_ba")%string;
  (".aB1b_", ".ab1b", "a_b1b")%string;
  ("-9.9zZBb", "-9.9zzbb", "9_9z_z_bb")%string;
  ("19_aA .0z-..", "19Aa.0Z-..", "19_a_a_0z")%string;
  ("_ ", "", "")%string;
  ("a_9_-.z._1 z", "a9-.Z.1Z", "a_9_z_1_z")%string;
  ("990", "990", "990")%string;
  ("A1a110b", "a1a110b", "a1a110b")%string;
  ("abB9b_Az ", "abb9bAz", "ab_b9b_az")%string;
  ("_9", "9", "9")%string;
  (".1ZA", ".1za", "1_za")%string;
  ("Ab b19Az", "abB19Az", "ab_b19_az")%string;
  ("A9Abz9b", "a9abz9b", "a9_abz9b")%string;
  ("-.19aaAa", "-.19aaaa", "19aa_aa")%string;
  ("BBbz9.", "bbbz9.", "b_bbz9")%string;
  ("Bbzaza1-.Zbb", "bbzaza1-.zbb", "bbzaza1_zbb")%string;
  (".9-0Ba 90Z ", ".9-0ba90Z", "9_0_ba_90_z")%string;
  ("a1zaaB1Za-", "a1zaab1za-", "a1zaa_b1_za")%string;
  ("a0 ZA Z1.", "a0ZaZ1.", "a0_za_z1")%string;
  ("_.", ".", "")%string;
  ("1aBa Aa", "1abaAa", "1a_ba_aa")%string;
  ("0 9zz11 ", "09Zz11", "0_9zz11")%string;
  (". ", ".", "")%string;
  ("0B._9.baz0-B", "0b.9.Baz0-B", "0_b_9_baz0_b")%string;
  ("1AZ.B.  _1 a", "1az.b.1A", "1_az_b_1_a")%string;
  ("A", "a", "a")%string;
  (".0", ".0", "0")%string;
  ("aZ-", "az-", "a_z")%string;
  ("z-.B", "z-.b", "z_b")%string;
  (". AA0b", ".Aa0B", "aa_0b")%string;
  ("  .Z -B", ".Z-B", "z_b")%string;
  ("B", "b", "b")%string;
  ("aABz", "aabz", "a_a_bz")%string;
  ("-b9b_1", "-b9b1", "b9b_1")%string;
  ("a1A_z", "a1aZ", "a1_z")%string;
  ("bAB00A- ZAa.", "bab00a-Zaa.", "b_ab_00_a_z_aa")%string;
  ("19aaBB- BBa9", "19aabb-Bba9", "19aa_bb_b_ba9")%string;
  ("BBB-", "bbb-", "bbb")%string;
  ("0- 0 ", "0-0", "0_0")%string;
  ("Z", "z", "z")%string;
  ("1zA_0z ZA", "1za0ZZa", "1z_0z_za")%string;
  ("Ab_B9z 0B-1a", "abB9Z0B-1A", "ab_b9z_0_b_1a")%string;
  ("b", "b", "b")%string;
  ("_1", "1", "1")%string;
  (" -ZB1", "-Zb1", "zb_1")%string;
  ("BzAb0.1B-ZZz", "bzab0.1b-zzz", "bz_ab0_1_b_z_zz")%string;
  ("-AZ 9b_AAa-.", "-az9BAaa-.", "az_9b_a_aa")%string;
  ("._", ".", "")%string;
  ("BZ0 bZ", "bz0Bz", "bz_0_b_z")%string;
  ("-A9", "-a9", "a9")%string;
  ("9 -b_A", "9-BA", "9_b_a")%string;
  ("11BA9Z0AZ", "11ba9z0az", "11_ba_9_z0_az")%string;
  ("Zzz1", "zzz1", "zzz1")%string;
  ("9b-_b", "9b-B", "9b_b")%string;
  ("_9A091", "9A091", "9_a091")%string;
  ("9.Z", "9.z", "9_z")%string;
  ("9", "9", "9")%string;
  ("_Z", "Z", "z")%string;
  ("A01Az", "a01az", "a01_az")%string;
  ("9Za_", "9za", "9_za")%string;
  ("zBZ aZ0B", "zbzAz0B", "z_bz_a_z0_b")%string;
  ("a", "a", "a")%string;
  ("9A.00A.a_", "9a.00a.a", "9_a_00_a_a")%string;
  ("-aA_a.1", "-aaA.1", "a_a_1")%string;
  ("ABa9Z1", "aba9z1", "a_ba9_z1")%string;
  ("-_aA__zA", "-AaZa", "a_z_a")%string;
  ("_11_z00.-aA_", "11Z00.-Aa", "11_z00_a")%string;
  ("AZ.9", "az.9", "az_9")%string;
  ("_0A BBb 9B_", "0ABbb9B", "0_a_b_bb_9")%string;
  (" ", "", "")%string;
  ("b", "b", "b")%string;
  ("-", "-", "")%string;
  ("0bBab_._a BZ", "0bbab.ABz", "0b_bab_a_bz")%string;
  ("0B", "0b", "0_b")%string;
  ("b9-b00z", "b9-b00z", "b9_b00z")%string;
  ("1bZb-", "1bzb-", "1b_zb")%string;
  ("b09___", "b09", "b09")%string;
  ("zbAa", "zbaa", "zb_aa")%string;
  (".1", ".1", "1")%string;
  ("1ZZz0", "1zzz0", "1_z_zz0")%string;
  ("B1 A bZ", "b1ABz", "b1_a_b_z")%string;
  ("B0Ba01a_bB", "b0ba01aBb", "b0_ba01a_b_b")%string;
  ("0b1.0bbA._", "0b1.0bba.", "0b1_0bb_a")%string;
  ("B0-ABb-_B_ ", "b0-abb-B", "b0_a_bb")%string;
  ("Az._zaZ", "az.Zaz", "az_za_z")%string;
  (" 0ZbZ", "0Zbz", "0_zb_z")%string;
  ("1b.A-", "1b.a-", "1b_a")%string;
  ("Zz91-Z_a", "zz91-zA", "zz91_a")%string;
  ("zazZb.---0", "zazzb.---0", "zaz_zb_0")%string;
  ("zA.Z", "za.z", "z_a_z")%string;
  ("AaA", "aaa", "aa_a")%string;
  ("B 9-B1aAB ", "b9-B1Aab", "b_9_b1a_ab")%string;
  ("_aZBb9b", "Azbb9B", "a_z_bb9b")%string;
  (" 09-_90.a.", "09-90.A.", "09_90_a")%string;
  ("0", "0", "0")%string;
  (" .10AAa1_ ", ".10Aaa1", "10_a_aa1")%string;
  ("1ab1ZaAa A", "1ab1zaaaA", "1ab1_za_aa_a")%string;
  ("0.abb", "0.abb", "0_abb")%string;
  ("z19_", "z19", "z19")%string;
  ("19", "19", "19")%string;
  ("a", "a", "a")%string;
  ("9A0", "9a0", "9_a0")%string;
  ("91zA0b 9B", "91za0b9B", "91z_a0b_9_b")%string;
  ("0..-.BabB_.-", "0..-.babb.-", "0_bab")%string;
  ("a9019", "a9019", "a9019")%string;
  ("Za-9a___-zZZ", "za-9a-Zzz", "za_9a_z_zz")%string;
  ("a09AB1Z.1_B_", "a09ab1z.1B", "a09_ab_1_z_1")%string;
  (".AB99 .Az0-B", ".ab99.Az0-B", "ab_99_az0_b")%string;
  ("0b_9A B", "0b9AB", "0b_9_a_b")%string;
  ("ba", "ba", "ba")%string;
  ("A 11", "a11", "a_11")%string;
  (".", ".", "")%string;
  ("9.A", "9.a", "9_a")%string;
  ("az-9B", "az-9b", "az_9_b")%string;
  ("0ZZz ", "0zzz", "0_z_zz")%string;
  ("9.a1Z.a.a 1A", "9.a1z.a.a1A", "9_a1_z_a_a_1_a")%string;
  ("._1B-1Aaza.A", ".1B-1Aaza.A", "1_b_1_aaza_a")%string;
  ("_BzAAb", "Bzaab", "bz_a_ab")%string;
  ("-b_a0aZa", "-bA0Aza", "b_a0a_za")%string;
  ("B_1z-1 Z.1-", "b1Z-1Z.1-", "1z_1_z_1")%string].
Definition day_vectors : list (Z * (Z * Z * Z)) := [
  ((-719162), (1, 1, 1));
  (2932896, (9999, 12, 31));
  (0, (1970, 1, 1));
  ((-1), (1969, 12, 31));
  (59, (1970, 3, 1));
  (60, (1970, 3, 2));
  (365, (1971, 1, 1));
  (789, (1972, 2, 29));
  (11016, (2000, 2, 29));
  (11017, (2000, 3, 1));
  (1328795, (5608, 2, 13));
  (1713964, (6662, 9, 4));
  (456018, (3218, 7, 15));
  (1908162, (7194, 5, 16));
  (2030593, (7529, 7, 30));
  (1839425, (7006, 3, 6));
  (1859616, (7061, 6, 16));
  ((-112914), (1660, 11, 7));
  (1394424, (5787, 10, 21));
  (334597, (2886, 2, 4));
  (1529334, (6157, 3, 5));
  (807668, (4181, 4, 27));
  (869669, (4351, 1, 28));
  (2561375, (8982, 10, 22));
  (1099228, (4979, 8, 2));
  (774393, (4090, 3, 20));
  (1253331, (5401, 7, 4));
  (28721, (2048, 8, 20));
  (1320462, (5585, 4, 21));
  (816835, (4206, 6, 3));
  (2059739, (7609, 5, 17));
  (2484, (1976, 10, 20));
  (2496715, (8805, 10, 10));
  (2748207, (9494, 5, 3));
  ((-334178), (1055, 1, 20));
  (533243, (3429, 12, 21));
  ((-593270), (345, 9, 7));
  (1007408, (4728, 3, 11));
  (1395621, (5791, 1, 30));
  (131611, (2330, 5, 5));
  (529838, (3420, 8, 25));
  (1128418, (5059, 7, 4));
  (1112099, (5014, 10, 29));
  (195569, (2505, 6, 14));
  ((-505032), (587, 4, 9));
  (1606627, (6368, 10, 18));
  (2501032, (8817, 8, 5));
  (1089226, (4952, 3, 14));
  (196879, (2509, 1, 14));
  (1247784, (5386, 4, 26));
  (2397589, (8534, 5, 18));
  (1801595, (6902, 8, 8));
  (6545, (1987, 12, 3));
  (460074, (3229, 8, 22));
  ((-392384), (895, 9, 9));
  (1493258, (6058, 5, 27));
  (2234391, (8087, 7, 22));
  (770285, (4078, 12, 20));
  (2246464, (8120, 8, 11));
  (648919, (3746, 9, 6));
  (250862, (2656, 11, 2));
  (905077, (4448, 1, 7));
  ((-646055), (201, 3, 1));
  (2083056, (7673, 3, 19));
  (790885, (4135, 5, 16));
  (2378901, (8483, 3, 18));
  (958171, (4593, 5, 20));
  (1263290, (5428, 10, 9));
  ((-536278), (501, 9, 21));
  (1252668, (5399, 9, 9));
  (652022, (3755, 3, 6));
  (2243358, (8112, 2, 9));
  (1287887, (5496, 2, 12));
  (573772, (3540, 12, 8));
  (1656809, (6506, 3, 11));
  (140314, (2354, 3, 3));
  (1693544, (6606, 10, 8));
  (694284, (3870, 11, 20));
  ((-267127), (1238, 8, 19));
  ((-152132), (1553, 6, 24));
  ((-368735), (960, 6, 9));
  (64855, (2147, 7, 27));
  (2166246, (7900, 12, 25));
  (48557, (2102, 12, 12));
  (1173921, (5184, 2, 2));
  (1000065, (4708, 2, 2));
  (1782288, (6849, 9, 27));
  (1648332, (6482, 12, 24));
  (1018252, (4757, 11, 18));
  (2676757, (9298, 9, 17));
  ((-90088), (1723, 5, 8));
  ((-716480), (8, 5, 6));
  (63262, (2143, 3, 17));
  (295442, (2778, 11, 23));
  (759293, (4048, 11, 15));
  ((-577557), (388, 9, 14));
  (1472238, (6000, 11, 7));
  (1908454, (7195, 3, 4));
  (1617972, (6399, 11, 10));
  (2562033, (8984, 8, 10));
  (1231451, (5341, 8, 7));
  (1352491, (5672, 12, 29));
  (511068, (3369, 4, 4));
  ((-284687), (1190, 7, 22));
  (2258334, (8153, 2, 9));
  (1269270, (5445, 2, 22));
  ((-577616), (388, 7, 17));
  (2049896, (7582, 6, 5));
  (1073208, (4908, 5, 6));
  (2378488, (8482, 1, 29));
  (566156, (3520, 2, 1));
  (2682747, (9315, 2, 11));
  (504135, (3350, 4, 11));
  ((-454076), (726, 10, 14));
  (2420934, (8598, 4, 17));
  (961293, (4601, 12, 7));
  (417328, (3112, 8, 10));
  ((-641320), (214, 2, 16));
  ((-685449), (93, 4, 21));
  ((-536403), (501, 5, 19));
  (1175009, (5187, 1, 25));
  (347158, (2920, 6, 27));
  ((-186401), (1459, 8, 27));
  ((-202724), (1414, 12, 18));
  ((-577339), (389, 4, 20));
  (2836868, (9737, 1, 30));
  (1802943, (6906, 4, 17));
  ((-271112), (1227, 9, 21));
  (421929, (3125, 3, 16));
  (2686255, (9324, 9, 19));
  (1238965, (5362, 3, 4));
  ((-378551), (933, 7, 25));
  (1099647, (4980, 9, 24));
  ((-697109), (61, 5, 19));
  (1513180, (6112, 12, 12));
  (472155, (3262, 9, 19));
  (1951707, (7313, 8, 5));
  (1893822, (7155, 2, 10));
  ((-137248), (1594, 3, 25));
  (1210754, (5284, 12, 6));
  (1083835, (4937, 6, 10));
  (2395136, (8527, 8, 30));
  (2532963, (8905, 1, 7));
  (1508030, (6098, 11, 5));
  (1119463, (5034, 12, 27));
  ((-377587), (936, 3, 15));
  (1831052, (6983, 4, 2));
  ((-584944), (368, 6, 24));
  ((-544664), (478, 10, 5));
  (2641720, (9202, 10, 14));
  (904686, (4446, 12, 12));
  (404178, (3076, 8, 8));
  (2024536, (7512, 12, 29));
  (1913768, (7209, 9, 20));
  (1644276, (6471, 11, 16));
  (2852686, (9780, 5, 22));
  (515294, (3380, 10, 29));
  (109078, (2268, 8, 24));
  (2254440, (8142, 6, 13));
  (158022, (2402, 8, 26))].

Example names_agree : forallb (fun p => let '(n, c, s) := p in String.eqb (camelcase n) c && String.eqb (snakecase n) s)%bool name_vectors = true.
Proof. vm_compute. reflexivity. Qed.
Example days_agree : forallb (fun p => let '(z, (y, m, d)) := p in let '(y', m', d') := civil_of z in (y =? y') && (m =? m') && (d =? d'))%bool day_vectors = true.
Proof. vm_compute. reflexivity. Qed.
