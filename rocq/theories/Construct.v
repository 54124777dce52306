(** * Construct: the declarative binary-format language and its two interpreters.

    The library declares every message with the combinators of construct
    2.9.45 plus the classes of util.py, properties.py and sensor.py.  [con] is
    the syntax of those declarations, [parse] and [build] their meaning
    (construct's [_parse] / [_build]).  A stream is a list of units: bytes, or
    bits (most significant first) inside [Bitwise].

    construct itself is not part of /repo; its behaviour as used here is part of
    the trusted base (DESIGN.md).  Simplifications: the context passed to
    [this.x] expressions is the innermost Struct frame (no declaration in the
    library uses [this._]); [obj] passed to a Struct must be a dict or None;
    compiled parsers ([.compile()]) behave as interpreted ones. *)
From Verif Require Import PyVal Bits Utf8 Adapters.

Inductive expr :=
| EConst (n : Z)
| EGet (k : string)         (* this.k *)
| ELen (k : string)         (* len_(this["k"]) *)
| ELenVals (k : string).    (* util.py:381 enum_switch_struct_len_(this["k"]) *)

Inductive con :=
| CInt (n : nat) (sg : bool)                 (* FormatField: Int8ul, Int16sl, ... (little endian) *)
| CBytesInt (n : nat) (swapped : bool)       (* BytesInteger(n[, swapped=True]), Int24ul, Int24ub *)
| CBits (n : nat) (sg : bool)                (* BitsInteger(n), inside Bitwise *)
| CFlag                                      (* Flag *)
| CIeee (n : nat)                            (* Float32l (4), Float64l (8) *)
| CBytes (n : nat)                           (* Bytes(n) *)
| CGreedyBytes                               (* GreedyBytes *)
| CGreedyString                              (* GreedyString("utf8") *)
| CPaddedString (e : expr)                   (* PaddedString(e, "utf8") *)
| CPascalString                              (* PascalString(Int8ul, "utf-8") *)
| CPrefixedBytes                             (* Prefixed(Int8ul, GreedyBytes) *)
| CPrefixedArray (c : con)                   (* PrefixedArray(Int8ul, c) *)
| CArray (e : expr) (c : con)                (* c[e] *)
| CGreedyRange (c : con)                     (* GreedyRange(c) *)
| CStruct (fs : fields)                      (* Struct(...) *)
| CBitwise (c : con)                         (* Bitwise(c), BitStruct *)
| CBytewise (c : con)                        (* Bytewise(c) *)
| CReversed (n : nat) (c : con)              (* util.py:68-69 Reversed, construct's ByteSwapped; n = c.sizeof() *)
| CAdapt (a : adapter) (c : con)             (* Adapter *)
| CSelect (l : alts)                         (* Select(...) *)
| CNamed (name : string) (c : con)           (* util.py:441-447 NameAdapter(name / c) *)
| CSwitch (k : string) (cs : cases)          (* Switch(this.k, cases), default Pass *)
| CEnumSwitchStruct (k : string) (cs : cases)       (* util.py:354-378 *)
| CIfDefault (k : string) (c : con) (d : val)       (* util.py:463-474 *)
| COpcode (t : enum)                                (* util.py:224-271 Opcode(t) *)
| CSwitchStruct (k : string) (kc : con) (t : enum) (sw : string) (cs : cases)
                                                    (* util.py:384-438 SwitchStruct(k / kc, sw / Switch(this.k, cs)); t = enum of kc *)
| CProp (hdr : con) (t : enum) (cs : cases)         (* properties.py:775-799 PropertyMixin after header hdr *)
| CSensorSetting (hdr : con) (t : enum) (cs : cases) (* sensor.py:140-223 *)
| CSensorData (t : enum) (cs : cases)               (* sensor.py:251-292 *)
with fields :=
| FNil
| FCons (k : string) (c : con) (fs : fields)                     (* "k" / c *)
| FDefault (k : string) (c : con) (d : val) (fs : fields)        (* "k" / Default(c, d) *)
| FRebuild (k : string) (e : expr) (c : con) (fs : fields)       (* "k" / Rebuild(c, e) *)
| FPad (k : option string) (n : nat) (fs : fields)               (* Padding(n), "_k" / Padding(n) *)
| FStopIf (k : string) (fs : fields)                             (* StopIf(this.k == 0) *)
| FBits (n : nat) (bs : fields) (fs : fields)                    (* util.py:199-221 *EmbeddedBitStruct("_", *bs, reversed=True), n bytes *)
with cases :=
| KNil
| KCons (name : string) (z : Z) (c : con) (cs : cases)           (* E.name: c, with E.name = z *)
with alts :=
| ANil
| ACons (c : con) (l : alts).

Scheme con_mut := Induction for con Sort Prop
  with fields_mut := Induction for fields Sort Prop
  with cases_mut := Induction for cases Sort Prop
  with alts_mut := Induction for alts Sort Prop.
Combined Scheme con_mutind from con_mut, fields_mut, cases_mut, alts_mut.

(** Embedded(Struct(fs1)) followed by fs2: construct 2.9 merges the fields *)
Fixpoint fapp (a b : fields) : fields :=
  match a with
  | FNil => b
  | FCons k c fs => FCons k c (fapp fs b)
  | FDefault k c d fs => FDefault k c d (fapp fs b)
  | FRebuild k e c fs => FRebuild k e c (fapp fs b)
  | FPad k n fs => FPad k n (fapp fs b)
  | FStopIf k fs => FStopIf k (fapp fs b)
  | FBits n bs fs => FBits n bs (fapp fs b)
  end.
Definition struct_fields (c : con) : fields := match c with CStruct fs => fs | _ => FNil end.

(** stream_read(stream, n): exactly n units or StreamError *)
Definition take (n : nat) (s : list Z) : res (list Z * list Z) :=
  if Nat.leb n (length s) then Ok (firstn n s, skipn n s) else Err EOther.

(** ** Integers *)
(** struct.pack: range checked *)
Definition int_min (n : nat) (sg : bool) : Z := if sg then - 2 ^ (8 * Z.of_nat n - 1) else 0.
Definition int_max (n : nat) (sg : bool) : Z :=
  if sg then 2 ^ (8 * Z.of_nat n - 1) - 1 else 2 ^ (8 * Z.of_nat n) - 1.
Definition int_of (n : nat) (sg : bool) (s : list Z) : Z :=
  if sg then to_signed (8 * Z.of_nat n) (of_le s) else of_le s.

(** construct.lib.integer2bytes: digits beyond the width wrap around and
    overwrite, IndexError beyond twice the width. *)
Definition ndigits (z : Z) : nat := if z =? 0 then O else Z.to_nat (Z.log2 z / 8 + 1).
Definition integer2bytes (n : nat) (z : Z) : res (list Z) :=
  let nd := ndigits z in
  if Nat.leb nd (2 * n)
  then Ok (to_le (nd - n) (z / 256 ^ Z.of_nat n) ++ skipn (nd - n) (to_le n z))
  else Err EOther.

(** ** Expressions *)
Definition vlen (v : val) : option Z :=
  match v with
  | VStr l | VBytes l => Some (Z.of_nat (length l))
  | VList l | VSet l => Some (Z.of_nat (length l))
  | VDict d => Some (Z.of_nat (length d))
  | _ => None
  end.
Definition eval (e : expr) (ctx : dict) : res Z :=
  match e with
  | EConst n => Ok n
  | EGet k => let* v := dgetr k ctx in as_intr v
  | ELen k => let* v := dgetr k ctx in
              match vlen v with Some n => Ok n | None => Err EOther end
  | ELenVals k => let* v := dgetr k ctx in
                  match v with
                  | VDict ((_, x) :: _) => match vlen x with Some n => Ok n | None => Err EOther end
                  | _ => Err EOther
                  end
  end.

Fixpoint find_case (z : Z) (cs : cases) : option (string * con) :=
  match cs with
  | KNil => None
  | KCons n w c cs' => if Z.eqb z w then Some (n, c) else find_case z cs'
  end.

(** trailing NUL bytes (NullStripped) *)
Fixpoint strip_nul (l : list Z) : list Z :=
  match l with
  | [] => []
  | b :: l' => match strip_nul l' with
               | [] => if b =? 0 then [] else [b]
               | r => b :: r
               end
  end.

(** ** Opcode (util.py:232-268) *)
Definition opcode_parse (s : list Z) : res (Z * list Z) :=
  match s with
  | [] => Err EOther
  | b0 :: s1 =>
      if b0 =? 0x7F then Err EOther
      else if b0 <? 128 then Ok (b0, s1)
      else match s1 with
           | [] => Err EOther
           | b1 :: s2 =>
               if b0 <? 192 then Ok (b0 * 256 + b1, s2)
               else match s2 with
                    | [] => Err EOther
                    | b2 :: s3 => Ok ((b0 * 256 + b1) * 256 + b2, s3)
                    end
           end
  end.
Definition opcode_build (z : Z) : res (list Z) :=
  if z >? 0xFFFF then
    (if z <? 16777216 then Ok [z / 65536; z / 256 mod 256; z mod 256] else Err EOther)
  else if z >? 0xFF then Ok [z / 256; z mod 256]
  else if 0 <=? z then Ok [z] else Err EOther.

(** bytes(x) *)
Definition to_bytes (v : val) : res (list Z) :=
  let of_list (l : list val) :=
    fold_right (fun x r => let* r := r in
                           let* z := as_intr x in
                           if (0 <=? z) && (z <? 256) then Ok (z :: r) else Err EOther) (Ok []) l in
  match v with
  | VBytes l => Ok l
  | VList l | VSet l => of_list l
  | VDict [] => Ok []
  | VInt _ | VBool _ | VEnum _ _ =>
      let* z := as_intr v in if 0 <=? z then Ok (repeat 0 (Z.to_nat z)) else Err EOther
  | _ => Err EOther
  end.

Definition raw_name : string := "sensor_setting_raw".
Definition sid_name : string := "sensor_setting_property_id".

(** sensor.py:141-145: the enum member (or the plain value) and the value's key *)
Definition setting_id (t : enum) (v : val) : val * string :=
  match int_key v with
  | Some z => match by_value t z with
              | Some (VEnum n w) => (VEnum n w, lower n)
              | _ => (v, raw_name)
              end
  | None => (v, raw_name)
  end.

(** GreedyRange._parse: any exception ends the list and rewinds; an element that
    consumes nothing would loop for ever. *)
Fixpoint greedy (p : list Z -> res (val * list Z)) (fuel : nat) (s : list Z) : res (list val * list Z) :=
  match fuel with
  | O => Diverge
  | S fuel' =>
      match p s with
      | Err _ => Ok ([], s)
      | Diverge => Diverge
      | Ok (v, r) =>
          if Nat.ltb (length r) (length s)
          then let* q := greedy p fuel' r in
               let (l, r') := (q : list val * list Z) in Ok (v :: l, r')
          else Diverge
      end
  end.

Fixpoint times_parse (p : list Z -> res (val * list Z)) (n : nat) (s : list Z) : res (list val * list Z) :=
  match n with
  | O => Ok ([], s)
  | S n' => let* q := p s in
            let (v, r) := (q : val * list Z) in
            let* q' := times_parse p n' r in
            let (l, r') := (q' : list val * list Z) in Ok (v :: l, r')
  end.

Fixpoint build_list (b : val -> res (list Z)) (l : list val) : res (list Z) :=
  match l with
  | [] => Ok []
  | x :: l' => let* a := b x in let* r := build_list b l' in Ok (a ++ r)
  end.

(** the value built under a Struct argument: None stands for {} *)
Definition as_dict (v : val) : res dict :=
  match v with
  | VDict d => Ok d
  | VNone => Ok []
  | _ => Err EOther
  end.

(** Copy the named fields of an EmbeddedBitStruct to the parent (util.py:216-220) *)
Fixpoint copy_named (bs : fields) (bits : dict) (obj : dict) : dict :=
  match bs with
  | FNil => obj
  | FCons k _ fs | FDefault k _ _ fs | FRebuild k _ _ fs | FPad (Some k) _ fs =>
      copy_named fs bits (match dget k bits with Some v => dset k v obj | None => obj end)
  | FPad None _ fs | FStopIf _ fs | FBits _ _ fs => copy_named fs bits obj
  end.

(** ** The parser *)
Fixpoint parse (c : con) (ctx : dict) (s : list Z) {struct c} : res (val * list Z) :=
  match c with
  | CInt n sg => let* q := take n s in let (a, r) := (q : list Z * list Z) in Ok (VInt (int_of n sg a), r)
  | CBytesInt n sw => let* q := take n s in let (a, r) := (q : list Z * list Z) in
                      Ok (VInt (of_le (if sw then a else rev a)), r)
  | CBits n sg => let* q := take n s in let (a, r) := (q : list Z * list Z) in
                  Ok (VInt (if sg then to_signed (Z.of_nat n) (of_bits a) else of_bits a), r)
  | CFlag => match s with
             | [] => Err EOther
             | b :: r => Ok (VBool (negb (b =? 0)), r)
             end
  | CIeee n => let* q := take n s in let (a, r) := (q : list Z * list Z) in Ok (VIeee n (of_le a), r)
  | CBytes n => let* q := take n s in let (a, r) := (q : list Z * list Z) in Ok (VBytes a, r)
  | CGreedyBytes => Ok (VBytes s, [])
  | CGreedyString => match utf8_decode s with Some t => Ok (VStr t, []) | None => Err EOther end
  | CPaddedString e =>
      let* n := eval e ctx in
      if n <? 0 then Err EOther else
      let* q := take (Z.to_nat n) s in let (a, r) := (q : list Z * list Z) in
      match utf8_decode (strip_nul a) with Some t => Ok (VStr t, r) | None => Err EOther end
  | CPascalString =>
      match s with
      | [] => Err EOther
      | n :: s1 => let* q := take (Z.to_nat n) s1 in let (a, r) := (q : list Z * list Z) in
                   match utf8_decode a with Some t => Ok (VStr t, r) | None => Err EOther end
      end
  | CPrefixedBytes =>
      match s with
      | [] => Err EOther
      | n :: s1 => let* q := take (Z.to_nat n) s1 in let (a, r) := (q : list Z * list Z) in Ok (VBytes a, r)
      end
  | CPrefixedArray c1 =>
      match s with
      | [] => Err EOther
      | n :: s1 => let* q := times_parse (parse c1 ctx) (Z.to_nat n) s1 in
                   let (l, r) := (q : list val * list Z) in Ok (VList l, r)
      end
  | CArray e c1 =>
      let* n := eval e ctx in
      if n <? 0 then Err EOther else
      let* q := times_parse (parse c1 ctx) (Z.to_nat n) s in
      let (l, r) := (q : list val * list Z) in Ok (VList l, r)
  | CGreedyRange c1 =>
      let* q := greedy (parse c1 ctx) (S (length s)) s in
      let (l, r) := (q : list val * list Z) in Ok (VList l, r)
  | CStruct fs => let* q := parse_fields fs [] s in
                  let (d, r) := (q : dict * list Z) in Ok (VDict d, r)
  | CBitwise c1 =>
      let* q := parse c1 ctx (bytes2bits s) in
      let (v, r) := (q : val * list Z) in
      (match bits2bytes r with
       | (r', []) => Ok (v, r')
       | _ => Err EOther
       end)
  | CBytewise c1 =>
      let (bs, lo) := bits2bytes s in
      let* q := parse c1 ctx bs in
      let (v, r) := (q : val * list Z) in Ok (v, bytes2bits r ++ lo)
  | CReversed n c1 =>
      let* q := take n s in let (a, r) := (q : list Z * list Z) in
      let* q' := parse c1 ctx (rev a) in
      let (v, r') := (q' : val * list Z) in
      (match r' with [] => Ok (v, r) | _ => Err EOther end)
  | CAdapt a c1 =>
      let* q := parse c1 ctx s in let (w, r) := (q : val * list Z) in
      let* v := decode a w in Ok (v, r)
  | CSelect l => parse_alts l ctx s
  | CNamed name c1 =>
      let* q := parse c1 ctx s in let (v, r) := (q : val * list Z) in
      (match v with
       | VDict d => Ok (VDict (dset "_name" (VStr (cps name)) d), r)
       | _ => Err EOther
       end)
  | CSwitch k cs =>
      let* kv := dgetr k ctx in
      (match int_key kv with
       | Some z => parse_case z cs ctx s
       | None => Ok (VNone, s)
       end)
  | CEnumSwitchStruct k cs =>
      let* kv := dgetr k ctx in
      (match kv with
       | VEnum n z => let* q := parse_case z cs ctx s in
                      let (v, r) := (q : val * list Z) in Ok (VDict [(lower n, v)], r)
       | _ => Err EOther
       end)
  | CIfDefault k c1 d =>
      let* kv := dgetr k ctx in
      if truthy kv then parse c1 ctx s else Ok (d, s)
  | COpcode t =>
      let* q := opcode_parse s in let (z, r) := (q : Z * list Z) in
      (match by_value t z with Some m => Ok (m, r) | None => Err EOther end)
  | CSwitchStruct k kc t sw cs =>
      let* q := parse kc [] s in let (kv, r) := (q : val * list Z) in
      (match kv with
       | VEnum n z => let* q' := parse_case z cs [(k, kv)] r in
                      let (v, r') := (q' : val * list Z) in
                      Ok (VDict (dset (lower n) v [(k, kv)]), r')
       | _ => Err EOther
       end)
  | CProp hdr t cs =>
      let* q := parse hdr ctx s in let (h, r) := (q : val * list Z) in
      (match h with
       | VDict d =>
           let* idv := dgetr "property_id" d in
           let* z := as_intr idv in
           (match by_value t z with
            | Some (VEnum n w) =>
                match find_case w cs with
                | None => Err EKey
                | Some _ =>
                  let* q' := parse_case w cs ctx r in let (v, r') := (q' : val * list Z) in
                  Ok (VDict (dset (lower n) v (dset "property_id" (VEnum n w) (ddel "property_id" d))), r')
                end
            | _ => Err EOther
            end)
       | _ => Err EOther
       end)
  | CSensorSetting hdr t cs =>
      let* q := parse hdr ctx s in let (h, r) := (q : val * list Z) in
      (match h with
       | VDict d =>
           let* idv := dgetr sid_name d in
           let (idv', name) := setting_id t idv in
           let* z := as_intr idv' in
           let out v := VDict (dset name v (dset sid_name idv' (ddel sid_name d))) in
           (match find_case z cs with
            | None => Ok (out (VList (map VInt r)), [])
            | Some _ => let* q' := parse_case z cs ctx r in
                        let (v, r') := (q' : val * list Z) in Ok (out v, r')
            end)
       | _ => Err EOther
       end)
  | CSensorData t cs =>
      (match s with
       | b0 :: b1 :: s1 =>
           let* q :=
             (if Z.odd b0 then
                match s1 with
                | b2 :: s2 => Ok (1, b0 / 2 + 1, b1 + b2 * 256, s2)
                | [] => Err EOther
                end
              else Ok (0, b0 / 2 mod 16 + 1, b0 / 32 mod 8 + b1 * 8, s1)) in
           let '(fmt, len, pid, s2) := (q : Z * Z * Z * list Z) in
           let sub := firstn (Z.to_nat len) s2 in
           let rest := skipn (Z.to_nat len) s2 in
           let (idv, name) := setting_id t (VInt pid) in
           let out v := VDict (dset name v [("format"%string, VInt fmt); ("length"%string, VInt len); (sid_name, idv)]) in
           (match find_case pid cs with
            | None => Ok (out (VList (map VInt sub)), rest)
            | Some _ => let* q' := parse_case pid cs ctx sub in
                        let (v, _) := (q' : val * list Z) in Ok (out v, rest)
            end)
       | _ => Err EOther
       end)
  end
(** Struct._parse: the result and the context grow together *)
with parse_fields (fs : fields) (obj : dict) (s : list Z) {struct fs} : res (dict * list Z) :=
  match fs with
  | FNil => Ok (obj, s)
  | FCons k c fs' | FDefault k c _ fs' | FRebuild k _ c fs' =>
      let* q := parse c obj s in let (v, r) := (q : val * list Z) in
      parse_fields fs' (dset k v obj) r
  | FPad k n fs' =>
      let* q := take n s in let (_, r) := (q : list Z * list Z) in
      parse_fields fs' (match k with Some k => dset k VNone obj | None => obj end) r
  | FStopIf k fs' =>
      let* v := dgetr k obj in
      if match num_of v with Some q => Qzero q | None => false end then Ok (obj, s)
      else parse_fields fs' obj s
  | FBits n bs fs' =>
      let* q := take n s in let (a, r) := (q : list Z * list Z) in
      let* q' := parse_fields bs [] (bytes2bits (rev a)) in
      let (bd, r') := (q' : dict * list Z) in
      (match r' with
       | [] => parse_fields fs' (copy_named bs bd (dset "_" (VDict bd) obj)) r
       | _ => Err EOther
       end)
  end
(** Switch / PropertyDict dispatch; no case: Pass (None, nothing consumed) *)
with parse_case (z : Z) (cs : cases) (ctx : dict) (s : list Z) {struct cs} : res (val * list Z) :=
  match cs with
  | KNil => Ok (VNone, s)
  | KCons _ w c cs' => if Z.eqb z w then parse c ctx s else parse_case z cs' ctx s
  end
(** Select._parse: every exception rewinds and tries the next one *)
with parse_alts (l : alts) (ctx : dict) (s : list Z) {struct l} : res (val * list Z) :=
  match l with
  | ANil => Err EOther
  | ACons c l' => match parse c ctx s with
                  | Err _ => parse_alts l' ctx s
                  | r => r
                  end
  end.

(** ** The builder.  The output of a failed build is never seen. *)
Fixpoint build (c : con) (ctx : dict) (v : val) {struct c} : res (list Z) :=
  match c with
  | CInt n sg =>
      let* z := as_intr v in
      if (int_min n sg <=? z) && (z <=? int_max n sg) then Ok (to_le n z) else Err EOther
  | CBytesInt n sw =>
      let* z := as_intr v in
      if z <? 0 then Err EOther else
      let* l := integer2bytes n z in Ok (if sw then l else rev l)
  | CBits n sg =>
      let* z := as_intr v in
      if (z <? 0) && negb sg then Err EOther else Ok (to_bits n z)
  | CFlag => Ok [if truthy v then 1 else 0]
  | CIeee n => match v with
               | VIeee m b => if Nat.eqb n m then Ok (to_le n b) else Err EOther
               | _ => Err EOther
               end
  | CBytes n => match v with
                | VBytes l => if Nat.eqb (length l) n then Ok l else Err EOther
                | _ => Err EOther
                end
  | CGreedyBytes => match v with VBytes l => Ok l | _ => Err EOther end
  | CGreedyString => match v with
                     | VStr t => match utf8_encode t with Some l => Ok l | None => Err EOther end
                     | _ => Err EOther
                     end
  | CPaddedString e =>
      let* n := eval e ctx in
      if n <? 0 then Err EOther else
      (match v with
       | VStr t => match utf8_encode t with
                   | Some l => if Z.of_nat (length l) <=? n
                               then Ok (l ++ repeat 0 (Z.to_nat n - length l)) else Err EOther
                   | None => Err EOther
                   end
       | _ => Err EOther
       end)
  | CPascalString => match v with
                     | VStr t => match utf8_encode t with
                                 | Some l => if Z.of_nat (length l) <? 256
                                             then Ok (Z.of_nat (length l) :: l) else Err EOther
                                 | None => Err EOther
                                 end
                     | _ => Err EOther
                     end
  | CPrefixedBytes => match v with
                      | VBytes l => if Z.of_nat (length l) <? 256
                                    then Ok (Z.of_nat (length l) :: l) else Err EOther
                      | _ => Err EOther
                      end
  | CPrefixedArray c1 =>
      (match iter v with
       | Some l => if Z.of_nat (length l) <? 256
                   then let* r := build_list (build c1 ctx) l in Ok (Z.of_nat (length l) :: r)
                   else Err EOther
       | None => Err EOther
       end)
  | CArray e c1 =>
      let* n := eval e ctx in
      (match iter v with
       | Some l => if (0 <=? n) && (Z.of_nat (length l) =? n)
                   then build_list (build c1 ctx) l else Err EOther
       | None => Err EOther
       end)
  | CGreedyRange c1 => match iter v with
                       | Some l => build_list (build c1 ctx) l
                       | None => Err EOther
                       end
  | CStruct fs => let* d := as_dict v in build_fields fs d d
  | CBitwise c1 => let* bs := build c1 ctx v in
                   (match bits2bytes bs with (l, []) => Ok l | _ => Err EOther end)
  | CBytewise c1 => let* l := build c1 ctx v in Ok (bytes2bits l)
  | CReversed _ c1 => let* l := build c1 ctx v in Ok (rev l)
  | CAdapt a c1 => let* w := encode a v in build c1 ctx w
  | CSelect l => build_alts l ctx v
  | CNamed name c1 =>
      (match v with
       | VDict d => match dget name d with
                    | Some x => build c1 ctx x
                    | None => build c1 ctx v
                    end
       | _ => Err EOther
       end)
  | CSwitch k cs =>
      let* kv := dgetr k ctx in
      (match int_key kv with
       | Some z => build_case z cs ctx v
       | None => Ok []
       end)
  | CEnumSwitchStruct k cs =>
      let* kv := dgetr k ctx in
      (match int_key kv with
       | Some z => match find_case z cs with
                   | Some (n, _) => match v with
                                    | VDict d => let* x := dgetr (lower n) d in build_case z cs ctx x
                                    | _ => Err EOther
                                    end
                   | None => Err EKey
                   end
       | None => Err EKey
       end)
  | CIfDefault k c1 _ =>
      let* kv := dgetr k ctx in
      if truthy kv then build c1 ctx v else Ok []
  | COpcode t =>
      let* z := as_intr v in
      let* l := opcode_build z in
      (match by_value t z with Some _ => Ok l | None => Err EOther end)
  | CSwitchStruct k kc t sw cs =>
      (match v with
       | VDict d =>
           let* kv := dgetr k d in
           (match int_key kv with
            | Some z =>
                match by_value t z with
                | Some (VEnum n w) =>
                    let* x := match dget (lower n) d with
                              | Some x => Ok x
                              | None => dgetr sw d
                              end in
                    let ctx' := [(k, VEnum n w); (sw, x)] in
                    let* a := build kc ctx' (VEnum n w) in
                    let* b := build_case w cs ctx' x in
                    Ok (a ++ b)
                | _ => Err EOther
                end
            | None => Err EOther
            end)
       | _ => Err EOther
       end)
  | CProp hdr t cs =>
      let* a := build hdr ctx v in
      (match v with
       | VDict d =>
           let* idv := dgetr "property_id" d in
           (match int_key idv with
            | Some z =>
                match by_value t z with
                | Some (VEnum n w) =>
                    match find_case w cs with
                    | Some _ => let* b := build_case w cs ctx (dgetn (lower n) d) in Ok (a ++ b)
                    | None => Err EKey
                    end
                | _ => Err EOther
                end
            | None => Err EOther
            end)
       | _ => Err EOther
       end)
  | CSensorSetting hdr t cs =>
      let* a := build hdr ctx v in
      (match v with
       | VDict d =>
           let* idv := dgetr sid_name d in
           let (idv', name) := setting_id t idv in
           let raw := match dget name d with Some x => x | None => dgetn raw_name d end in
           let* b := match int_key idv' with
                     | Some z => match find_case z cs with
                                 | Some _ => match build_case z cs ctx raw with
                                             | Err EKey => to_bytes raw
                                             | r => r
                                             end
                                 | None => to_bytes raw
                                 end
                     | None => to_bytes raw
                     end in
           Ok (a ++ b)
       | _ => Err EOther
       end)
  | CSensorData t cs =>
      (match v with
       | VDict d =>
           let* idv := dgetr sid_name d in
           let* fmt := dgetr "format" d in
           let* len := geti "length" d in
           let* pid := as_intr idv in
           let* a :=
             (if truthy fmt then
                let h := Z.lor (2 * (len - 1)) 1 in
                if (0 <=? h) && (h <? 256) && (0 <=? pid) && (pid <? 65536)
                then Ok [h; pid mod 256; pid / 256] else Err EOther
              else
                let h := Z.lor (2 * (len - 1)) (32 * Z.land pid 7) in
                if (0 <=? h) && (h <? 256) && (0 <=? pid / 8) && (pid / 8 <? 256)
                then Ok [h; pid / 8] else Err EOther) in
           let (idv', name) := setting_id t idv in
           let raw := match dget name d with Some x => x | None => dgetn raw_name d end in
           let* b := match find_case pid cs with
                     | Some _ => match build_case pid cs ctx raw with
                                 | Err EKey => to_bytes raw
                                 | r => r
                                 end
                     | None => to_bytes raw
                     end in
           Ok (a ++ b)
       | _ => Err EOther
       end)
  end
(** Struct._build: [obj] is the argument, [ctx] starts as its copy and records
    what each field built (only Rebuild changes a value) *)
with build_fields (fs : fields) (ctx : dict) (obj : dict) {struct fs} : res (list Z) :=
  match fs with
  | FNil => Ok []
  | FCons k c fs' =>
      let* x := dgetr k obj in
      let* a := build c ctx x in
      let* b := build_fields fs' (dset k x ctx) obj in Ok (a ++ b)
  | FDefault k c d fs' =>
      let x := match dgetn k obj with VNone => d | y => y end in
      let* a := build c ctx x in
      let* b := build_fields fs' (dset k x ctx) obj in Ok (a ++ b)
  | FRebuild k e c fs' =>
      let* n := eval e ctx in
      let* a := build c ctx (VInt n) in
      let* b := build_fields fs' (dset k (VInt n) ctx) obj in Ok (a ++ b)
  | FPad k n fs' =>
      let* b := build_fields fs' (match k with Some k => dset k (dgetn k obj) ctx | None => ctx end) obj in
      Ok (repeat 0 n ++ b)
  | FStopIf k fs' =>
      let* v := dgetr k ctx in
      if match num_of v with Some q => Qzero q | None => false end then Ok []
      else build_fields fs' ctx obj
  | FBits n bs fs' =>
      let* bits := build_fields bs ctx ctx in
      (match bits2bytes bits with
       | (l, []) => let* b := build_fields fs' ctx obj in Ok (rev l ++ b)
       | _ => Err EOther
       end)
  end
with build_case (z : Z) (cs : cases) (ctx : dict) (v : val) {struct cs} : res (list Z) :=
  match cs with
  | KNil => Ok []
  | KCons _ w c cs' => if Z.eqb z w then build c ctx v else build_case z cs' ctx v
  end
with build_alts (l : alts) (ctx : dict) (v : val) {struct l} : res (list Z) :=
  match l with
  | ANil => Err EOther
  | ACons c l' => match build c ctx v with
                  | Err _ => build_alts l' ctx v
                  | r => r
                  end
  end.

(** The public entry points: parse ignores trailing bytes (construct's Construct.parse);
    build starts from an empty context. *)
Definition parse_msg (c : con) (s : list Z) : res val :=
  let* q := parse c [] s in let (v, _) := (q : val * list Z) in Ok v.
Definition build_msg (c : con) (v : val) : res (list Z) := build c [] v.

(** construct's names *)
Notation Int8ul := (CInt 1 false) (only parsing).
Notation Int16ul := (CInt 2 false) (only parsing).
Notation Int32ul := (CInt 4 false) (only parsing).
Notation Int64ul := (CInt 8 false) (only parsing).
Notation Int8sl := (CInt 1 true) (only parsing).
Notation Int16sl := (CInt 2 true) (only parsing).
Notation Int32sl := (CInt 4 true) (only parsing).
Notation Int64sl := (CInt 8 true) (only parsing).
Notation Int24ul := (CBytesInt 3 true) (only parsing).
Notation Int24ub := (CBytesInt 3 false) (only parsing).
