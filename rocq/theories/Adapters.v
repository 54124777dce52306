(** * Adapters: the value-level half of the library (construct Adapters).

    Every adapter has a [decode] (wire value -> Python object, used by parse)
    and an [encode] (Python object -> wire value, used by build).  Each
    definition cites the code it models.  *)
From Verif Require Import PyVal Bits Float64 Utf8.

(** An enum class: its members (name, value) in definition order; later
    entries with an already used value are aliases (enum.IntEnum). *)
Definition enum := list (string * Z).

(** E(value): the canonical (first) member with that value. *)
Fixpoint by_value (t : enum) (z : Z) : option val :=
  match t with
  | [] => None
  | (n, w) :: t' => if Z.eqb z w then Some (VEnum n w) else by_value t' z
  end.

(** E[name]: aliases give the canonical member. *)
Fixpoint name_value (t : enum) (s : list Z) : option Z :=
  match t with
  | [] => None
  | (n, w) :: t' => if zlist_eqb s (cps n) then Some w else name_value t' s
  end.
Definition by_name (t : enum) (s : list Z) : option val :=
  match name_value t s with Some z => by_value t z | None => None end.

(** Numbers: Python compares and mixes int, bool, IntEnum and float freely. *)
Definition num_of (v : val) : option Q :=
  match v with
  | VInt z => Some (inject_Z z)
  | VBool b => Some (inject_Z (if b then 1 else 0))
  | VEnum _ z => Some (inject_Z z)
  | VFloat q => Some q
  | _ => None
  end.

(** Keys that hash and compare like an int ({1: ..}[1.0] finds 1). *)
Definition int_key (v : val) : option Z :=
  match v with
  | VFloat q => if Pos.eqb (Qden q) 1 then Some (Qnum q) else None
  | _ => as_int v
  end.

(** util.py:122-130 EnumAdapter._encode; construct's IntEnum lookups. *)
Definition enum_encode (t : enum) (v : val) : res val :=
  match v with
  | VStr s => match by_name t s with Some m => Ok m | None => Err EKey end
  | _ => match int_key v with
         | Some z => match by_value t z with Some m => Ok m | None => Err EOther end
         | None => Err EOther
         end
  end.

(** util.py:117-120 EnumAdapter._decode *)
Definition enum_decode (t : enum) (w : val) : res val :=
  match as_int w with
  | Some z => match by_value t z with Some m => Ok m | None => Err EOther end
  | None => Err EOther
  end.

(** config.py:444-453 AddressType *)
Inductive addr_type :=
| UNASSIGNED | UNICAST | GROUP | VIRTUAL | RFU | ALL_PROXIES | ALL_FRIENDS | ALL_RELAYS | ALL_NODES.
Definition addr_eqb (a b : addr_type) : bool :=
  match a, b with
  | UNASSIGNED, UNASSIGNED | UNICAST, UNICAST | GROUP, GROUP | VIRTUAL, VIRTUAL | RFU, RFU
  | ALL_PROXIES, ALL_PROXIES | ALL_FRIENDS, ALL_FRIENDS | ALL_RELAYS, ALL_RELAYS
  | ALL_NODES, ALL_NODES => true
  | _, _ => false
  end.

(** config.py:456-483 get_address_type *)
Definition get_address_type (a : Z) : addr_type :=
  if a =? 0 then UNASSIGNED
  else if (0xFF00 <=? a) && (a <=? 0xFFFB) then RFU
  else if a =? 0xFFFC then ALL_PROXIES
  else if a =? 0xFFFD then ALL_FRIENDS
  else if a =? 0xFFFE then ALL_RELAYS
  else if a =? 0xFFFF then ALL_NODES
  else if Z.land a 0xC000 =? 0xC000 then GROUP
  else if Z.land a 0x8000 =? 0x8000 then VIRTUAL
  else UNICAST.

(** The [resolution] argument of DefaultCountValidator: int or float. *)
Inductive resolution := RInt (z : Z) | RFloat (q : Q).

Inductive adapter :=
| AEnum (t : enum)                                  (* util.py:110-133 *)
| ARange (lo hi : option Z)                         (* util.py:174-184, ExprValidator(obj_ > 0), (obj_ <= 15), lambda obj <= 0x3 *)
| AMask (m : Z)                                     (* config.py:543-546 Int12ul *)
| AAddrIn (l : list addr_type)                      (* config.py:486-487, 507-541 *)
| AAddrOut (l : list addr_type)                     (* config.py:512-529 *)
| ALog (bytes : Z) (max : option Z) (inf : bool)    (* util.py:136-171 *)
| ACount (bytes : Z) (rounding : Z) (r : resolution) (unknown : bool) (* util.py:274-293; rounding 0 = None *)
| ATransition (unknown : bool)                      (* generics.py:28-51 *)
| ADelay                                            (* generics.py:54-61 *)
| ARetransmit (interval : Z)                        (* config.py:633-655 *)
| AKeyIndices                                       (* config.py:680-711 *)
| ABitList (size : nat) (rev : bool)                (* util.py:72-98 *)
| ASet                                              (* util.py:101-106 *)
| AMac                                              (* util.py:296-301 *)
| AIp                                               (* util.py:304-309 *)
| ADate                                             (* properties.py:230-256 *)
| ATimeExp8                                         (* properties.py:220-227 *)
| AFixedString                                      (* properties.py:279-287 *)
| ATime                                             (* time.py:185-244 *)
| ATimestamp.                                       (* silvair/emergency_lighting_test.py:111-163 *)

(** ** Validators: the same predicate on both directions (construct ExprValidator).
    Simplification: a non-integer argument is an error at once; in the code the
    comparison or the following integer field raises instead. *)
Definition in_range (lo hi : option Z) (z : Z) : bool :=
  match lo with Some l => l <=? z | None => true end &&
  match hi with Some h => z <=? h | None => true end.

Definition validate (p : Z -> bool) (v : val) : res val :=
  match as_int v with
  | Some z => if p z then Ok v else Err EOther
  | None => Err EOther
  end.

(** ** LogAdapter (util.py:136-171).
    [math.log(obj, 2)] is modelled exactly: [log2 x + 1 > max] iff [x > 2^(max-1)],
    [int(log2 x + 1)] is the floor for x >= 1.  (Binary rounding of math.log
    near powers of two above 2^28 or for non-integer x within one ulp of a power
    of two is not modelled; the maxima in use are 2^15 and 2^16.) *)
Definition log_decode (bytes : Z) (max : option Z) (inf : bool) (z : Z) : res val :=
  if z =? 0 then Ok (VInt 0)
  else if (z =? 2 ^ (8 * bytes) - 1) && inf then Ok VInf
  else if match max with Some m => m <? z | None => false end then Err EOther
  else Ok (VInt (2 ^ (z - 1))).

Definition Qltb (a b : Q) : bool := Z.ltb (Qnum a * Zpos (Qden b)) (Qnum b * Zpos (Qden a)).
Definition Qleb (a b : Q) : bool := Z.leb (Qnum a * Zpos (Qden b)) (Qnum b * Zpos (Qden a)).

Definition log_encode (bytes : Z) (max : option Z) (inf : bool) (v : val) : res val :=
  match v with
  | VInf => if inf then Ok (VInt (2 ^ (8 * bytes) - 1)) else Err EOther
  | _ =>
    match num_of v with
    | None => Err EOther
    | Some q =>
        if Qzero q then Ok (VInt 0)
        else if Qltb q 0 then Err EOther                        (* math domain error *)
        else if match max with Some m => Qltb (two_pow (m - 1)) q | None => false end then Err EOther
        else if Qleb 1 q then Ok (VInt (Z.log2 (ftrunc q) + 1))
        else if Qltb (1 # 4) q then Ok (VInt 0)                 (* int() truncates towards 0 *)
        else Err EOther                                         (* negative: rejected by the integer field *)
    end
  end.

(** ** DefaultCountValidator (util.py:274-293) *)
Definition count_decode (bytes rounding : Z) (r : resolution) (unknown : bool) (z : Z) : val :=
  if unknown && (z =? 256 ^ bytes - 1) then VFloat fmax
  else match r with
       | RInt k => VInt (z * k)                                 (* round(int, k) is the int *)
       | RFloat q => let x := fmul (fz z) q in
                     VFloat (if rounding =? 0 then x else fround rounding x)
       end.

Definition true_div (v : val) (r : resolution) : option Q :=
  match r, as_int v, num_of v with
  | RInt k, Some z, _ => Some (rnd64 (inject_Z z / inject_Z k))      (* int / int *)
  | RFloat q, Some z, _ => Some (fdiv (fz z) q)
  | RInt k, None, Some x => Some (fdiv x (fz k))
  | RFloat q, None, Some x => Some (fdiv x q)
  | _, None, None => None
  end.

Definition count_encode (bytes rounding : Z) (r : resolution) (unknown : bool) (v : val) : res val :=
  match num_of v with
  | None => Err EOther
  | Some x =>
      if unknown && Qeq_bool x fmax then Ok (VInt (256 ^ bytes - 1))
      else match true_div v r with Some y => Ok (VInt (rneQ y)) | None => Err EOther end
  end.

(** ** TransitionTimeAdapter (generics.py:28-51) *)
Definition step_resolution (r : Z) : option resolution :=
  if r =? 0 then Some (RFloat (flit 1 10))
  else if r =? 1 then Some (RInt 1)
  else if r =? 2 then Some (RInt 10)
  else if r =? 3 then Some (RInt 600)
  else None.

Definition times (z : Z) (r : resolution) : val :=
  match r with RInt k => VInt (z * k) | RFloat q => VFloat (fmul (fz z) q) end.

Definition transition_decode (w : val) : res val :=
  match w with
  | VDict d =>
      let* s := dgetr "steps" d in
      let* r := dgetr "resolution" d in
      match as_int s, as_int r with
      | Some s, Some r => match step_resolution r with
                          | Some q => Ok (times s q)
                          | None => Err EKey
                          end
      | _, _ => Err EOther
      end
  | _ => Err EOther
  end.

(** the first range whose 63 steps reach [v]: (index, steps as a float) *)
Definition transition_try (v : val) (x : Q) (r : Z) : option (Z * Q) :=
  match step_resolution r with
  | None => None
  | Some q =>
      match num_of (times 63 q) with
      | Some lim => if Qleb x lim
                    then match true_div v q with Some s => Some (r, s) | None => None end
                    else None
      | None => None
      end
  end.

Definition transition_encode (unknown : bool) (v : val) : res val :=
  match num_of v with
  | None => Err EOther
  | Some x =>
      let pick := match transition_try v x 0 with
                  | Some p => Some p
                  | None => match transition_try v x 1 with
                            | Some p => Some p
                            | None => match transition_try v x 2 with
                                      | Some p => Some p
                                      | None => transition_try v x 3
                                      end
                            end
                  end in
      match pick with
      | None => Err EOther
      | Some (r, s) =>
          if rneQ s <=? (if unknown then 63 else 62)
          then Ok (VDict [("steps"%string, VInt (ftrunc s)); ("resolution"%string, VInt r)])
          else Err EOther
      end
  end.

(** ** Delay (generics.py:54-61) *)
Definition delay_decode (w : val) : res val :=
  let* z := as_intr w in Ok (VFloat (rnd64 (inject_Z z / inject_Z 200))).

Definition delay_encode (v : val) : res val :=
  match as_int v with
  | Some z => Ok (VInt (z * 200))
  | None => match v with
            | VFloat x => Ok (VInt (ftrunc (fmul x 200)))
            | _ => Err EOther
            end
  end.

(** ** RetransmitAdapter (config.py:633-655).  The quotient is an exact small
    integer when the guard passes, so [int(round(interval / self.interval - 1))]
    is that integer. *)
Definition retransmit_decode (iv : Z) (w : val) : res val :=
  match w with
  | VDict d =>
      let* c := dgetr "count" d in
      let* s := dgetr "interval_steps" d in
      let* s := as_intr s in
      Ok (VDict [("count"%string, c); ("interval"%string, VInt ((s + 1) * iv))])
  | _ => Err EOther
  end.

Definition retransmit_encode (iv : Z) (v : val) : res val :=
  match v with
  | VDict d =>
      let* c := dgetr "count" d in
      let* n := as_intr c in
      if 7 <? n then Err EOther
      else
        let* i := dgetr "interval" d in
        match int_key i with
        | Some z => if (0 <? z) && (z <=? 32 * iv) && (z mod iv =? 0)
                    then Ok (VDict [("count"%string, c); ("interval_steps"%string, VInt (z / iv - 1))])
                    else Err EOther
        | None => Err EOther
        end
  | _ => Err EOther
  end.

(** ** KeyIndicesAdapter (config.py:680-711) *)
Definition ival (v : val) : Z := match as_int v with Some z => z | None => 0 end.
(** list.sort() / sorted(): stable insertion by integer value *)
Fixpoint insert_by (x : val) (l : list val) : list val :=
  match l with
  | [] => [x]
  | y :: l' => if ival x <=? ival y then x :: l else y :: insert_by x l'
  end.
Fixpoint isort (l : list val) : list val :=
  match l with [] => [] | x :: l' => insert_by x (isort l') end.

Fixpoint flatten_items (l : list val) : res (list val) :=
  match l with
  | [] => Ok []
  | VDict d :: l' =>
      let* r := flatten_items l' in
      match dget "last" d with
      | Some v => Ok (v :: r)
      | None => let* a := dgetr "first" d in let* b := dgetr "second" d in Ok (a :: b :: r)
      end
  | _ :: _ => Err EOther
  end.

Fixpoint pair_items (l : list val) : list val :=
  match l with
  | a :: b :: l' => VDict [("first"%string, a); ("second"%string, b)] :: pair_items l'
  | [a] => [VDict [("last"%string, a)]]
  | [] => []
  end.

Definition is_intlike (v : val) : bool := match as_int v with Some _ => true | None => false end.

Definition key_indices_decode (w : val) : res val :=
  match w with
  | VList l => let* r := flatten_items l in Ok (VList (isort r))
  | _ => Err EOther
  end.
Definition key_indices_encode (v : val) : res val :=
  match v with
  | VList l => if forallb is_intlike l then Ok (VList (pair_items (isort l))) else Err EOther
  | _ => Err EOther
  end.

(** ** BitListAdapter (util.py:72-98) *)
Fixpoint set_bits (i : Z) (l : list val) : list val :=
  match l with
  | [] => []
  | b :: l' => if truthy b then VInt i :: set_bits (i + 1) l' else set_bits (i + 1) l'
  end.
Definition num_is (z : Z) (v : val) : bool :=
  match int_key v with Some y => z =? y | None => false end.
Definition bitlist_decode (rv : bool) (w : val) : res val :=
  match w with
  | VList l => Ok (VSet (set_bits 0 (if rv then rev l else l)))
  | _ => Err EOther
  end.
Definition bitlist_encode (size : nat) (rv : bool) (v : val) : res val :=
  match v with
  | VStr _ => Err EOther
  | _ => match iter v with
         | Some l => let b := map (fun i => VBool (existsb (num_is (Z.of_nat i)) l)) (seq 0 (8 * size)) in
                     Ok (VList (if rv then rev b else b))
         | None => Err EOther
         end
  end.

(** ** SetAdapter (util.py:101-106).  set(obj): equal elements are merged.
    The iteration order of a Python set is arbitrary; here first occurrence. *)
Definition val_num_eqb (a b : val) : bool :=
  match num_of a, num_of b with Some x, Some y => Qeq_bool x y | _, _ => false end.
Fixpoint dedup (l : list val) : list val :=
  match l with
  | [] => []
  | x :: l' => x :: filter (fun y => negb (val_num_eqb x y)) (dedup l')
  end.
Definition set_decode (w : val) : res val :=
  match w with VList l => Ok (VSet (dedup l)) | _ => Err EOther end.

(** ** MacAddressAdapter and IpAddressAdapter (util.py:296-309).
    Simplification: int(text, base) is modelled for plain digit strings; the
    exotic spellings Python also accepts ("0x1f", " 1f", "1_0") are errors here. *)
Definition hexdigit (n : Z) : Z := if n <? 10 then 48 + n else 87 + n.
Definition hexval (c : Z) : option Z :=
  if (48 <=? c) && (c <=? 57) then Some (c - 48)
  else if (97 <=? c) && (c <=? 102) then Some (c - 87)
  else if (65 <=? c) && (c <=? 70) then Some (c - 55)
  else None.
Definition hex2 (b : Z) : list Z := [hexdigit (b / 16); hexdigit (b mod 16)].
Fixpoint join (sep : Z) (l : list (list Z)) : list Z :=
  match l with
  | [] => []
  | [x] => x
  | x :: l' => x ++ sep :: join sep l'
  end.
Fixpoint split (sep : Z) (l : list Z) : list (list Z) :=
  match l with
  | [] => [[]]
  | c :: l' => match split sep l' with
               | w :: ws => if c =? sep then [] :: w :: ws else (c :: w) :: ws
               | [] => [[]]
               end
  end.
Fixpoint digits_acc (base acc : Z) (l : list Z) : option Z :=
  match l with
  | [] => Some acc
  | c :: l' => match hexval c with
               | Some d => if d <? base then digits_acc base (acc * base + d) l' else None
               | None => None
               end
  end.
Definition parse_int (base : Z) (l : list Z) : option Z :=
  match l with [] => None | _ => digits_acc base 0 l end.
Fixpoint octets (base : Z) (l : list (list Z)) : option (list Z) :=
  match l with
  | [] => Some []
  | w :: l' => match parse_int base w, octets base l' with
               | Some b, Some r => if b <? 256 then Some (b :: r) else None
               | _, _ => None
               end
  end.
Definition mac_decode (w : val) : res val :=
  match w with VBytes l => Ok (VStr (join 58 (map hex2 l))) | _ => Err EOther end.
Definition mac_encode (v : val) : res val :=
  match v with
  | VStr s => match octets 16 (split 58 s) with Some l => Ok (VBytes l) | None => Err EOther end
  | _ => Err EOther
  end.
Definition ip_decode (w : val) : res val :=
  match w with VBytes l => Ok (VIPv4 l) | _ => Err EOther end.
Definition ip_encode (v : val) : res val :=
  match v with
  | VStr s => match octets 10 (split 46 s) with Some l => Ok (VBytes l) | None => Err EOther end
  | _ => Err EOther                                   (* IPv4Address has no .split *)
  end.

(** ** Calendar (datetime.date): proleptic Gregorian, days since 1970-01-01 *)
Definition is_leap (y : Z) : bool := (y mod 4 =? 0) && (negb (y mod 100 =? 0) || (y mod 400 =? 0)).
Definition days_in_month (y m : Z) : Z :=
  if m =? 2 then (if is_leap y then 29 else 28)
  else if (m =? 4) || (m =? 6) || (m =? 9) || (m =? 11) then 30 else 31.
(** days before 1 January of year y, counted from 1 January of year 1 *)
Definition days_before_year (y : Z) : Z :=
  let p := y - 1 in p * 365 + p / 4 - p / 100 + p / 400.
Fixpoint days_before_month (y : Z) (m : nat) : Z :=
  match m with
  | O => 0
  | S O => 0
  | S m' => days_before_month y m' + days_in_month y (Z.of_nat m')
  end.
Definition epoch_day : Z := 719162.          (* date(1970,1,1).toordinal() - 1 *)
Definition civil_days (y m d : Z) : option Z :=
  if (1 <=? y) && (y <=? 9999) && (1 <=? m) && (m <=? 12) && (1 <=? d) && (d <=? days_in_month y m)
  then Some (days_before_year y + days_before_month y (Z.to_nat m) + (d - 1) - epoch_day)
  else None.
Definition max_day : Z := 2932896.           (* date(9999,12,31) *)
Definition min_day : Z := -719162.           (* date(1,1,1) *)

(** properties.py:238-242 *)
Definition date_decode (w : val) : res val :=
  let* z := as_intr w in
  if (min_day <=? z) && (z <=? max_day) then Ok (VDate z) else Err EOther.

Definition geti (k : string) (d : dict) : res Z := let* v := dgetr k d in as_intr v.

(** properties.py:244-256 *)
Definition date_encode (v : val) : res val :=
  match v with
  | VNone => Ok (VInt 0)
  | VDict d =>
      let* y := geti "year" d in
      let* m := geti "month" d in
      let* dd := geti "day" d in
      match civil_days y m dd with Some z => Ok (VInt z) | None => Err EOther end
  | VDate z => Ok (VInt z)
  | VDateTime _ _ => Err EOther                        (* datetime - date: TypeError *)
  | _ => Ok v
  end.

(** ** TimeExponential8Validator (properties.py:220-227).
    [pow(1.1, k)] is assumed correctly rounded.  [round(log(x, 1.1))] is modelled
    in exact arithmetic as the integer k with 1.1^(k-1/2) <= x < 1.1^(k+1/2),
    decided on squares with 1.1 = 11/10 (libm's error only matters within about
    1e-14 of such a boundary). *)
Definition base11 : Q := flit 11 10.
Definition qpow (q : Q) (k : Z) : Q :=
  if 0 <=? k then Qmake (Qnum q ^ k) (Z.to_pos (Zpos (Qden q) ^ k))
  else Qmake (Zpos (Qden q) ^ (- k)) (Z.to_pos (Qnum q ^ (- k))).
Definition exp8_value (z : Z) : Q := fround 4 (rnd64 (qpow base11 (z - 64))).
Definition exp8_decode (w : val) : res val :=
  let* z := as_intr w in
  if z =? 0 then Ok (VInt 0) else Ok (VFloat (exp8_value z)).
(** [a / b = 1.1^(2k+1)] throughout the search *)
Fixpoint exp8_search (n : nat) (k a b : Z) (x2 : Q) : Z :=
  match n with
  | O => 256 - 64
  | S n' => if Qnum x2 * b <? a * Zpos (Qden x2) then k else exp8_search n' (k + 1) (121 * a) (100 * b) x2
  end.
Definition exp8_encode (v : val) : res val :=
  if truthy v then
    match num_of v with
    | Some x => if Qltb 0 x then Ok (VInt (exp8_search 257 (-65) (10 ^ 129) (11 ^ 129) (x * x) + 64)) else Err EOther
    | None => Err EOther
    end
  else Ok (VInt 0).

(** ** FixedString (properties.py:279-287): identity on parse; bytes are decoded on build. *)
Definition fixed_string_encode (v : val) : res val :=
  match v with
  | VBytes l => match utf8_decode l with Some s => Ok (VStr s) | None => Err EOther end
  | _ => Ok v
  end.

(** ** Time (time.py:54-109, 185-244) *)
Definition mesh_epoch : Z := 946684800.                (* time.py:59-61 *)
Definition max_us : Z := 253402300800 * 1000000.       (* 10000-01-01 UTC *)
Definition min_us : Z := -62135596800 * 1000000.       (* 0001-01-01 UTC *)
Definition in_dt (us : Z) : bool := (min_us <=? us) && (us <? max_us).
(** timezone(td): strictly between -24h and 24h *)
Definition tz_ok (s : Z) : bool := (-86400 <? s) && (s <? 86400).
(** timedelta.total_seconds() *)
Definition total_seconds (us : Z) : Q := rnd64 (us # 1000000).

(** time.py:83-84 *)
Definition zone_seconds (tz : Z) : Z := (tz - 64) * 900.
(** time.py:87-92; int(off % 900) == 0 *)
Definition zone_to_mesh (off : Z) : res Z :=
  if off mod 900 =? 0 then Ok (off / 900 + 64) else Err EOther.
(** time.py:95-96 *)
Definition delta_of_mesh (d : Z) : Z := (d - 255) * 1000000.
(** time.py:99-101 *)
Definition delta_to_mesh (us : Z) : res Z :=
  let s := total_seconds us in
  if Pos.eqb (Qden s) 1 then Ok (ftrunc (fadd s 255)) else Err EOther.

Definition time_decode (w : val) : res val :=
  match w with
  | VDict d =>
      let* t := geti "tai_seconds" d in
      if t =? 0 then
        Ok (VDict [("date"%string, VNone); ("tai_utc_delta"%string, VNone);
                   ("time_authority"%string, VNone); ("uncertainty"%string, VNone)])
      else
        let* tz := geti "time_zone_offset" d in
        let* sub := geti "subsecond" d in
        let off := zone_seconds tz in
        if negb (tz_ok off) then Err EOther else
        (* tai + sub/256 + epoch + offset is exact in binary64 (48 significant bits);
           fromtimestamp rounds to microseconds, half to even *)
        let us := (t + mesh_epoch + off) * 1000000 + rne (sub * 1000000) 256 in
        if in_dt us && in_dt (us + off * 1000000) then
          let* dl := geti "tai_utc_delta" d in
          let* au := dgetr "time_authority" d in
          let* un := geti "uncertainty" d in
          Ok (VDict [("date"%string, VDateTime us off);
                     ("tai_utc_delta"%string, VTimedelta (delta_of_mesh dl));
                     ("time_authority"%string, VBool (truthy au));
                     ("uncertainty"%string, VTimedelta (un * 10000))])
        else Err EOther
  | _ => Err EOther
  end.

(** timedelta(seconds=float): whole seconds exactly, the fraction rounded half to even *)
Definition us_of_float (x : Q) : Z :=
  let i := ftrunc x in i * 1000000 + rneQ (fmul (x - inject_Z i) 1000000).

(** time.py:216-227: a {"year": ...} dict is turned into an aware datetime.
    Simplification: integer fields, time_zone_offset an integral number of minutes. *)
Definition datetime_of (v : val) : res (Z * Z) :=
  match v with
  | VDateTime us off => Ok (us, off)
  | VDict d =>
      let* tz := dgetr "time_zone_offset" d in
      match int_key tz with
      | None => Err EOther
      | Some tzm =>
        let* y := geti "year" d in let* m := geti "month" d in let* dd := geti "day" d in
        let* h := geti "hour" d in let* mi := geti "minute" d in
        let* s := geti "second" d in let* u := geti "microsecond" d in
        let off := tzm * 60 in
        match civil_days y m dd with
        | Some day =>
            if tz_ok off && (0 <=? h) && (h <? 24) && (0 <=? mi) && (mi <? 60)
               && (0 <=? s) && (s <? 60) && (0 <=? u) && (u <? 1000000)
            then Ok (((day * 86400 + h * 3600 + mi * 60 + s) - off) * 1000000 + u, off)
            else Err EOther
        | None => Err EOther
        end
      end
  | _ => Err EOther
  end.

(** time.py:232-233: an int is taken as seconds *)
Definition delta_us (v : val) : res Z :=
  match v with
  | VTimedelta us => Ok us
  | _ => match as_int v with Some s => Ok (s * 1000000) | None => Err EOther end
  end.
(** time.py:229-230: a float is taken as seconds *)
Definition uncertainty_us (v : val) : res Z :=
  match v with
  | VTimedelta us => Ok us
  | VFloat x => Ok (us_of_float x)
  | _ => Err EOther
  end.

Definition time_encode (v : val) : res val :=
  match v with
  | VDict d =>
      let* dt := dgetr "date" d in
      let* p := datetime_of dt in
      let (us, off) := (p : Z * Z) in
      let* un := dgetr "uncertainty" d in
      let* un := match un with VInt _ | VBool _ | VEnum _ _ => Err EOther | _ => uncertainty_us un end in
      let* dl := dgetr "tai_utc_delta" d in
      let* dl := delta_us dl in
      let* au := dgetr "time_authority" d in
      let total := fsub (fsub (total_seconds us) (inject_Z mesh_epoch)) (inject_Z off) in
      let tai := ftrunc total in
      let* delta := delta_to_mesh dl in
      let* zone := zone_to_mesh off in
      Ok (VDict [("tai_seconds"%string, VInt tai);
                 ("subsecond"%string, VInt (rneQ (fmul (fsub total (inject_Z tai)) 256)));
                 ("uncertainty"%string, VInt (ftrunc (fmul (total_seconds un) 100)));
                 ("tai_utc_delta"%string, VInt delta);
                 ("time_authority"%string, VBool (truthy au));
                 ("time_zone_offset"%string, VInt zone)])
  | _ => Err EOther
  end.

(** silvair/emergency_lighting_test.py:117-133 *)
Definition timestamp_decode (w : val) : res val :=
  match w with
  | VDict d =>
      let* raw := geti "tai_utc_delta_raw" d in
      let delta := delta_of_mesh (raw mod 32768) in
      if Z.odd (raw / 32768) then Err EOther else
      let* tz := geti "time_zone_offset" d in
      let* t := geti "tai_seconds" d in
      let off := zone_seconds tz in
      if negb (tz_ok off) then Err EOther else
      let us := (t + mesh_epoch) * 1000000 in
      if in_dt us && in_dt (us + off * 1000000) && in_dt (us + off * 1000000 - delta)
      then Ok (VDict [("date"%string, VDateTime (us - delta) off);
                      ("tai_utc_delta"%string, VTimedelta delta)])
      else Err EOther
  | _ => Err EOther
  end.

(** silvair/emergency_lighting_test.py:135-163 *)
Definition timestamp_encode (v : val) : res val :=
  match v with
  | VDict d =>
      let* dt := dgetr "date" d in
      let* p := datetime_of dt in
      let (us, off) := (p : Z * Z) in
      let* dl := dgetr "tai_utc_delta" d in
      let* dl := delta_us dl in
      if in_dt us && in_dt (us + dl) then
        let* delta := delta_to_mesh dl in
        let* zone := zone_to_mesh off in
        Ok (VDict [("tai_seconds"%string, VInt (ftrunc (total_seconds (us + dl)) - mesh_epoch));
                   ("tai_utc_delta_raw"%string, VInt delta);
                   ("time_zone_offset"%string, VInt zone)])
      else Err EOther
  | _ => Err EOther
  end.

(** ** Dispatch *)
Definition decode (a : adapter) (w : val) : res val :=
  match a with
  | AEnum t => enum_decode t w
  | ARange lo hi => validate (in_range lo hi) w
  | AMask m => validate (fun z => Z.land z m =? 0) w
  | AAddrIn l => validate (fun z => existsb (addr_eqb (get_address_type z)) l) w
  | AAddrOut l => validate (fun z => negb (existsb (addr_eqb (get_address_type z)) l)) w
  | ALog b m i => let* z := as_intr w in log_decode b m i z
  | ACount b k r u => let* z := as_intr w in Ok (count_decode b k r u z)
  | ATransition _ => transition_decode w
  | ADelay => delay_decode w
  | ARetransmit iv => retransmit_decode iv w
  | AKeyIndices => key_indices_decode w
  | ABitList _ rv => bitlist_decode rv w
  | ASet => set_decode w
  | AMac => mac_decode w
  | AIp => ip_decode w
  | ADate => date_decode w
  | ATimeExp8 => exp8_decode w
  | AFixedString => Ok w
  | ATime => time_decode w
  | ATimestamp => timestamp_decode w
  end.

Definition encode (a : adapter) (v : val) : res val :=
  match a with
  | AEnum t => enum_encode t v
  | ARange lo hi => validate (in_range lo hi) v
  | AMask m => validate (fun z => Z.land z m =? 0) v
  | AAddrIn l => validate (fun z => existsb (addr_eqb (get_address_type z)) l) v
  | AAddrOut l => validate (fun z => negb (existsb (addr_eqb (get_address_type z)) l)) v
  | ALog b m i => log_encode b m i v
  | ACount b k r u => count_encode b k r u v
  | ATransition u => transition_encode u v
  | ADelay => delay_encode v
  | ARetransmit iv => retransmit_encode iv v
  | AKeyIndices => key_indices_encode v
  | ABitList n rv => bitlist_encode n rv v
  | ASet => Ok v
  | AMac => mac_encode v
  | AIp => ip_encode v
  | ADate => date_encode v
  | ATimeExp8 => exp8_encode v
  | AFixedString => fixed_string_encode v
  | ATime => time_encode v
  | ATimestamp => timestamp_encode v
  end.
