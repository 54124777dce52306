(** * AdapterSpec: the documented domain of every adapter.

    [A_spec a v w w' v']: [v] is a legal argument of a field with adapter [a], it
    travels as the wire value [w]; when the receiver's wire value is [w'] the
    field reads [v'].  (Wire values are what the underlying integer, bit or list
    field carries.)  None of these definitions mentions [encode] or [decode]. *)
From Coq Require Import Qabs Permutation Sorted.
From Verif Require Import PyVal Bits Float64 FloatX Utf8 Adapters.

(** [z] is the value of a member of the enumeration [t], canonically named [n] *)
Definition member (t : enum) (n : string) (z : Z) : Prop :=
  exists t1 t2, t = t1 ++ (n, z) :: t2 /\ ~ In z (map snd t1).
(** [s] is a name (or alias) for the value [z] *)
Definition named (t : enum) (s : string) (z : Z) : Prop :=
  exists t1 t2, t = t1 ++ (s, z) :: t2 /\ ~ In s (map fst t1).

(** Mesh address ranges (Mesh Profile 3.4.2) *)
Definition addr_class (k : addr_type) (z : Z) : Prop :=
  match k with
  | UNASSIGNED => z = 0
  | UNICAST => 0x0001 <= z <= 0x7FFF
  | VIRTUAL => 0x8000 <= z <= 0xBFFF
  | GROUP => 0xC000 <= z <= 0xFEFF
  | RFU => 0xFF00 <= z <= 0xFFFB
  | ALL_PROXIES => z = 0xFFFC
  | ALL_FRIENDS => z = 0xFFFD
  | ALL_RELAYS => z = 0xFFFE
  | ALL_NODES => z = 0xFFFF
  end.

Definition within (lo hi : option Z) (z : Z) : Prop :=
  match lo with Some l => l <= z | None => True end /\
  match hi with Some h => z <= h | None => True end.

(** the number a resolution stands for *)
Definition has_res (r : resolution) (n : Z) (d : positive) : Prop :=
  0 < n /\ match r with RInt k => k = n /\ d = 1%positive | RFloat q => q = flit n d end.

(** the object a scaled field of [k] decimals reads for the raw integer [z]:
    an int for an integer resolution, else the double nearest to z * n/d (the
    float product when no rounding is asked for) *)
Definition scaled (k : Z) (r : resolution) (n : Z) (d : positive) (z : Z) : val :=
  match r with
  | RInt _ => VInt (z * n)
  | RFloat _ => VFloat (if k =? 0 then rnd64 (inject_Z z * flit n d) else rnd64 (inject_Z z * (n # d)))
  end.
(** the decimals asked for suffice to write the resolution *)
Definition decimals_ok (k : Z) (r : resolution) (n : Z) (d : positive) : Prop :=
  n <= 2 ^ 15 /\
  match r with
  | RInt _ => True
  | RFloat _ => k = 0 \/ (0 < k /\ exists m, n * 10 ^ k = m * Zpos d /\ 0 < m <= 2 ^ 15)
  end.

(** transition steps: resolution index and size of one step *)
Definition step_size (r : Z) : Q :=
  if r =? 0 then 1 # 10 else if r =? 1 then 1 else if r =? 2 then 10 else 600.
Definition step_value (r s : Z) : val :=
  if r =? 0 then VFloat (rnd64 (inject_Z s * flit 1 10))
  else VInt (s * (if r =? 1 then 1 else if r =? 2 then 10 else 600)).
(** multiples of 0.1 s that, written as a decimal literal, are cut to the step below
    by binary64 division (0.3/0.1 = 2.99..), and the one decoded value with that fate *)
Definition lossy_steps : list Z :=
  [3; 6; 7; 12; 14; 19; 23; 24; 28; 29; 33; 38; 41; 43; 46; 48; 51; 53; 56; 58; 61; 63].
(** multiples of 0.005 s (delays) and 0.01 s (uncertainties) with the same fate *)
Definition lossy_delays : list Z :=
  [29; 57; 58; 113; 114; 115; 116; 201; 203; 205; 207; 226; 228; 230; 232; 251; 253; 255].

(** a time of [x] seconds is sent as [s] steps of resolution [r] *)
Definition steps_of (x : Q) (r s : Z) : Prop :=
  0 <= s <= 63 /\
  if r =? 0
  then (inject_Z s + (1 # 1000000) <= 10 * x <= inject_Z s + 1 - (1 # 1000000))%Q /\ s < 63
       \/ (x == rnd64 (inject_Z s * flit 1 10))%Q /\ s <> 43
       \/ (x == rnd64 (s # 10))%Q /\ ~ In s lossy_steps
  else 1 <= r <= 3 /\
       ((if (r =? 1)%Z then 631 # 100 else if (r =? 2)%Z then 63 + (1 # 1000000) else 630 + (1 # 1000000)) <= x
        /\ inject_Z s <= x / step_size r <= inject_Z s + 1 - (1 # 1000000)
        /\ x <= 63 * step_size r)%Q.

(** the successive pairs of a list *)
Fixpoint pairs (l : list Z) : list val :=
  match l with
  | a :: b :: l' => VDict [("first"%string, VInt a); ("second"%string, VInt b)] :: pairs l'
  | [a] => [VDict [("last"%string, VInt a)]]
  | [] => []
  end.

(** hexadecimal digit of either case *)
Definition is_hex (c n : Z) : Prop :=
  (48 <= c <= 57 /\ n = c - 48) \/ (97 <= c <= 102 /\ n = c - 87) \/ (65 <= c <= 70 /\ n = c - 55).
(** two digits per octet, separated by colons *)
Fixpoint mac_text (s : list Z) (l : list Z) : Prop :=
  match l with
  | [] => False
  | [b] => exists c1 c2 n1 n2, s = [c1; c2] /\ is_hex c1 n1 /\ is_hex c2 n2 /\ b = 16 * n1 + n2
  | b :: l' => exists c1 c2 n1 n2 s', s = c1 :: c2 :: 58 :: s' /\ is_hex c1 n1 /\ is_hex c2 n2
                 /\ b = 16 * n1 + n2 /\ mac_text s' l'
  end.
Definition lower_mac (s : list Z) : Prop := Forall (fun c => c = 58 \/ 48 <= c <= 57 \/ 97 <= c <= 102) s.

(** decimal numeral of a byte, no leading zero *)
Definition decimal (b : Z) : list Z :=
  if b <? 10 then [48 + b]
  else if b <? 100 then [48 + b / 10; 48 + b mod 10]
  else [48 + b / 100; 48 + b / 10 mod 10; 48 + b mod 10].
Fixpoint dotted (l : list Z) : list Z :=
  match l with
  | [] => []
  | [b] => decimal b
  | b :: l' => decimal b ++ 46 :: dotted l'
  end.

(** days from 1970-01-01 to the first of a month, counted month by month: the
    calendar is specified by its recurrence, not by a formula *)
Definition leap (y : Z) : Prop := y mod 4 = 0 /\ (y mod 100 <> 0 \/ y mod 400 = 0).
Definition month_len (y m n : Z) : Prop :=
  (m = 2 /\ leap y /\ n = 29) \/ (m = 2 /\ ~ leap y /\ n = 28) \/
  (In m [4; 6; 9; 11] /\ n = 30) \/ (In m [1; 3; 5; 7; 8; 10; 12] /\ n = 31).
Inductive calendar : Z -> Z -> Z -> Z -> Prop :=   (* year month day daycount *)
| cal_epoch : calendar 1970 1 1 0
| cal_day y m d z n : calendar y m d z -> month_len y m n -> d < n -> calendar y m (d + 1) (z + 1)
| cal_month y m d z : calendar y m d z -> month_len y m d -> m < 12 -> calendar y (m + 1) 1 (z + 1)
| cal_year y z : calendar y 12 31 z -> calendar (y + 1) 1 1 (z + 1)
| cal_day_back y m d z : calendar y m d z -> 1 < d -> calendar y m (d - 1) (z - 1)
| cal_month_back y m z n : calendar y m 1 z -> 1 < m -> month_len y (m - 1) n -> calendar y (m - 1) n (z - 1)
| cal_year_back y z : calendar y 1 1 z -> 1 < y -> calendar (y - 1) 12 31 (z - 1).

(** the Time Exponential 8 value nearest to x on the logarithmic scale:
    1.1^(z-64-1/2) <= x < 1.1^(z-64+1/2) *)
Definition near_exp8 (x : Q) (z : Z) : Prop :=
  (0 < x)%Q /\ ((11 # 10) ^ (2 * (z - 64) - 1) <= x * x)%Q /\ (x * x < (11 # 10) ^ (2 * (z - 64) + 1))%Q.
(** 1.1^(z-64) rounded to four decimals *)
Definition exp8_float (z : Z) : Q := fround 4 (rnd64 (flit 11 10 ^ (z - 64))%Q).

(** a Python date-and-time argument: [us] microseconds since 1970 UTC, [off] the
    zone in seconds *)
Definition a_datetime (v : val) (us off : Z) : Prop :=
  v = VDateTime us off \/
  exists d tz y m dd day h mi s u, v = VDict d
    /\ dget "time_zone_offset" d = Some (VInt tz) /\ off = tz * 60 /\ -1440 < tz < 1440
    /\ dget "year" d = Some (VInt y) /\ dget "month" d = Some (VInt m) /\ dget "day" d = Some (VInt dd)
    /\ dget "hour" d = Some (VInt h) /\ dget "minute" d = Some (VInt mi)
    /\ dget "second" d = Some (VInt s) /\ dget "microsecond" d = Some (VInt u)
    /\ calendar y m dd day /\ 1 <= y <= 9999
    /\ 0 <= h < 24 /\ 0 <= mi < 60 /\ 0 <= s < 60 /\ 0 <= u < 1000000
    /\ us = (day * 86400 + h * 3600 + mi * 60 + s - off) * 1000000 + u.
(** years 1 .. 9999 *)
Definition dt_range (us : Z) : Prop := -62135596800 * 1000000 <= us < 253402300800 * 1000000.
(** seconds from 1970 to 2000-01-01T00:00:00 *)
Definition y2000 : Z := 946684800.

Definition A_spec (a : adapter) (v w w' v' : val) : Prop :=
  match a with
  | AEnum t => exists n z, member t n z
      /\ (as_int v = Some z \/ exists s, v = VStr (cps s) /\ named t s z)
      /\ w = VEnum n z /\ as_int w' = Some z /\ v' = VEnum n z
  | ARange lo hi => exists z, as_int v = Some z /\ within lo hi z /\ w = v /\ w' = VInt z /\ v' = VInt z
  | AMask m => exists z, as_int v = Some z /\ m = 0xF000 /\ 0 <= z < 0x1000 /\ w = v /\ w' = VInt z /\ v' = VInt z
  | AAddrIn l => exists z k, as_int v = Some z /\ addr_class k z /\ In k l /\ w = v /\ w' = VInt z /\ v' = VInt z
  | AAddrOut l => exists z k, as_int v = Some z /\ addr_class k z /\ ~ In k l /\ w = v /\ w' = VInt z /\ v' = VInt z
  | ALog b m inf =>
      (exists x, num_of v = Some x /\ (x == 0)%Q /\ w = VInt 0 /\ w' = VInt 0 /\ v' = VInt 0) \/
      (exists x n, num_of v = Some x /\ 1 <= n < 2 ^ (8 * b) - 1
         /\ (inject_Z (2 ^ (n - 1)) <= x)%Q /\ (x < inject_Z (2 ^ n))%Q
         /\ match m with Some m => (x <= inject_Z (2 ^ (m - 1)))%Q | None => True end
         /\ w = VInt n /\ w' = VInt n /\ v' = VInt (2 ^ (n - 1))) \/
      (0 < b /\ inf = true /\ v = VInf /\ w = VInt (2 ^ (8 * b) - 1) /\ w' = w /\ v' = VInf)
  | ACount b k r unknown =>
      (exists n d x z, has_res r n d /\ decimals_ok k r n d /\ num_of v = Some x
         /\ (forall y, as_int v = Some y -> Z.abs y <= 2 ^ 53)
         /\ 1 <= b <= 4 /\ Z.abs z < 256 ^ b
         /\ (Qabs (x / (n # d) - inject_Z z) <= 49 # 100)%Q
         /\ (unknown = true -> z <> 256 ^ b - 1)
         /\ w = VInt z /\ w' = VInt z /\ v' = scaled k r n d z) \/
      (exists x, unknown = true /\ num_of v = Some x /\ (x == fmax)%Q
         /\ w = VInt (256 ^ b - 1) /\ w' = w /\ v' = VFloat fmax)
  | ATransition unknown =>
      exists x r s d', num_of v = Some x /\ steps_of x r s
        /\ (unknown = false -> s <= 62 /\ (x <= (6249 # 100) * step_size r)%Q)
        /\ w = VDict [("steps"%string, VInt s); ("resolution"%string, VInt r)]
        /\ w' = VDict d' /\ dget "steps" d' = Some (VInt s) /\ dget "resolution" d' = Some (VInt r)
        /\ v' = step_value r s
  | ADelay =>
      exists x z, num_of v = Some x /\ 0 <= z <= 255
        /\ ((inject_Z z + (1 # 1000000) <= 200 * x <= inject_Z z + 1 - (1 # 1000000))%Q
            \/ (x == rnd64 (z # 200))%Q /\ ~ In z lossy_delays)
        /\ w = VInt z /\ w' = VInt z /\ v' = VFloat (rnd64 (z # 200))
  | ARetransmit iv =>
      exists d c n i s d' c', v = VDict d /\ dget "count" d = Some c /\ as_int c = Some n /\ n <= 7
        /\ dget "interval" d = Some i /\ as_int i = Some ((s + 1) * iv) /\ 0 <= s < 32 /\ 0 < iv
        /\ w = VDict [("count"%string, c); ("interval_steps"%string, VInt s)]
        /\ w' = VDict d' /\ dget "count" d' = Some c' /\ dget "interval_steps" d' = Some (VInt s)
        /\ v' = VDict [("count"%string, c'); ("interval"%string, VInt ((s + 1) * iv))]
  | AKeyIndices =>
      exists zs zs', v = VList (map VInt zs) /\ Permutation zs zs' /\ Sorted Z.le zs'
        /\ w = VList (pairs zs') /\ w' = w /\ v' = VList (map VInt zs')
  | ABitList size rv =>
      exists l bs, iter v = Some l /\ (forall s, v <> VStr s) /\ Forall (fun x => exists z, as_int x = Some z) l
        /\ length bs = (8 * size)%nat
        /\ (forall i, (i < 8 * size)%nat ->
              nth i bs false = true <-> exists x, In x l /\ as_int x = Some (Z.of_nat i))
        /\ w = VList (map VBool (if rv then rev bs else bs))
        /\ w' = VList (map (fun b : bool => VInt (if b then 1 else 0)) (if rv then rev bs else bs))
        /\ exists zs, v' = VSet (map VInt zs) /\ StronglySorted Z.lt zs
             /\ forall z, In z zs <-> (exists i, z = Z.of_nat i /\ nth i bs false = true)
  | ASet =>
      exists l' zs, w = v /\ w' = VList l' /\ map as_int l' = map Some zs /\ NoDup zs /\ v' = VSet l'
  | AMac => exists s s' l, v = VStr s /\ mac_text s l /\ w = VBytes l /\ w' = w
              /\ mac_text s' l /\ lower_mac s' /\ v' = VStr s'
  | AIp => exists l, bytes l /\ l <> [] /\ v = VStr (dotted l) /\ w = VBytes l /\ w' = w /\ v' = VIPv4 l
  | ADate => exists z, 0 <= z <= 2932896
        /\ (v = VDate z \/ exists d y m dd, v = VDict d /\ dget "year" d = Some (VInt y)
              /\ dget "month" d = Some (VInt m) /\ dget "day" d = Some (VInt dd) /\ calendar y m dd z /\ 1 <= y <= 9999)
        /\ w = VInt z /\ w' = VInt z /\ v' = VDate z
  | ATimeExp8 =>
      (exists x, num_of v = Some x /\ (x == 0)%Q /\ w = VInt 0 /\ w' = VInt 0 /\ v' = VInt 0) \/
      (exists x z, num_of v = Some x /\ 1 <= z <= 255 /\ near_exp8 x z
         /\ w = VInt z /\ w' = VInt z /\ v' = VFloat (exp8_float z))
  | AFixedString => exists s, (v = VStr s \/ exists b, v = VBytes b /\ utf8_encode s = Some b)
        /\ w = VStr s /\ w' = w /\ v' = w
  | ATime =>
      exists d dv us off t m sub unv un dlv dl au tz d' a',
        v = VDict d /\ dget "date" d = Some dv /\ a_datetime dv us off
        /\ off = (tz - 64) * 900 /\ -86400 < off < 86400
        /\ us = (t + y2000 + off) * 1000000 + m /\ 1 <= t /\ 0 <= m < 1000000
        /\ 0 <= sub <= 255 /\ Z.abs (256 * m - 1000000 * sub) <= 400000
        /\ dt_range ((t + y2000 + off) * 1000000) /\ dt_range ((t + 1 + y2000 + off) * 1000000)
        /\ dt_range ((t + y2000 + 2 * off) * 1000000) /\ dt_range ((t + 1 + y2000 + 2 * off) * 1000000)
        /\ dget "uncertainty" d = Some unv
        /\ (unv = VTimedelta (un * 10000) /\ ~ In un lossy_delays) /\ 0 <= un <= 255
        /\ dget "tai_utc_delta" d = Some dlv
        /\ (dlv = VTimedelta ((dl - 255) * 1000000) \/ as_int dlv = Some (dl - 255)) /\ 0 <= dl < 32768
        /\ dget "time_authority" d = Some au
        /\ w = VDict [("tai_seconds"%string, VInt t); ("subsecond"%string, VInt sub);
                      ("uncertainty"%string, VInt un); ("tai_utc_delta"%string, VInt dl);
                      ("time_authority"%string, VBool (truthy au)); ("time_zone_offset"%string, VInt tz)]
        /\ w' = VDict d' /\ dget "tai_seconds" d' = Some (VInt t) /\ dget "subsecond" d' = Some (VInt sub)
        /\ dget "uncertainty" d' = Some (VInt un) /\ dget "tai_utc_delta" d' = Some (VInt dl)
        /\ dget "time_authority" d' = Some a' /\ (a' = VBool (truthy au) \/ a' = VInt (if truthy au then 1 else 0))
        /\ dget "time_zone_offset" d' = Some (VInt tz)
        /\ exists m', Z.abs (256 * m' - 1000000 * sub) <= 128 /\ (Z.abs (256 * m' - 1000000 * sub) = 128 -> Z.even m' = true)
           /\ v' = VDict [("date"%string, VDateTime ((t + y2000 + off) * 1000000 + m') off);
                       ("tai_utc_delta"%string, VTimedelta ((dl - 255) * 1000000));
                       ("time_authority"%string, VBool (truthy au));
                       ("uncertainty"%string, VTimedelta (un * 10000))]
  | ATimestamp =>
      exists d dv us off dlv dl t m tz d',
        v = VDict d /\ dget "date" d = Some dv /\ a_datetime dv us off
        /\ off = (tz - 64) * 900 /\ -86400 < off < 86400
        /\ dget "tai_utc_delta" d = Some dlv
        /\ (dlv = VTimedelta ((dl - 255) * 1000000) \/ as_int dlv = Some (dl - 255)) /\ 0 <= dl < 32768
        /\ us + (dl - 255) * 1000000 = (t + y2000) * 1000000 + m /\ 0 <= t /\ 0 <= m < 999900
        /\ dt_range us
        /\ dt_range ((t + y2000) * 1000000) /\ dt_range ((t + 1 + y2000) * 1000000)
        /\ dt_range ((t + y2000 + off) * 1000000) /\ dt_range ((t + y2000 + off - (dl - 255)) * 1000000)
        /\ w = VDict [("tai_seconds"%string, VInt t); ("tai_utc_delta_raw"%string, VInt dl);
                      ("time_zone_offset"%string, VInt tz)]
        /\ w' = VDict d' /\ dget "tai_seconds" d' = Some (VInt t) /\ dget "tai_utc_delta_raw" d' = Some (VInt dl)
        /\ dget "time_zone_offset" d' = Some (VInt tz)
        /\ v' = VDict [("date"%string, VDateTime ((t + y2000 - (dl - 255)) * 1000000) off);
                       ("tai_utc_delta"%string, VTimedelta ((dl - 255) * 1000000))]
  end.
