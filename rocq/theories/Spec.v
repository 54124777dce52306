(** * Spec: what it means for an object to be a well-formed argument of a message,
    and which object a receiver is entitled to read back.

    [conf A c dl eb ep v v'] says: [v] is a legal argument for the declaration
    [c], and [v'] is the object that decoding must return (in its public form,
    that is without the keys starting with an underscore).  It is written
    without reference to the builder or the parser: there is no stream in it.
    - [dl = true]: other bytes may follow; [dl = false]: the field is the last
      thing of the message (open-ended fields are legal only there);
    - [eb] / [ep]: the values of the enclosing Struct's earlier fields as given
      to build / as read back (what [this.x] refers to);
    - [A a v w w' v'] is the domain of adapter [a]: [v] is a legal argument, it
      stands for the wire value [w], a wire value [w'] stands for [v'] (see
      AdapterSpec.v for the documented domain of each adapter). *)
From Verif Require Import PyVal Bits Utf8 Adapters Construct Size.

(** the integers of an n-bit two's complement (sg) or unsigned field *)
Definition fits (bits : Z) (sg : bool) (z : Z) : Prop :=
  if sg then - 2 ^ (bits - 1) <= z < 2 ^ (bits - 1) else 0 <= z < 2 ^ bits.

(** the three legal opcode formats (Mesh Profile 3.7.3.1) *)
Definition legal_opcode (z : Z) : Prop :=
  (0 <= z < 0x80 /\ z <> 0x7F) \/ 0x8000 <= z < 0xC000 \/ 0xC00000 <= z < 0x1000000.

(** [R] pairs the elements; all but the last one are followed by something *)
Fixpoint conf_list (R : bool -> val -> val -> Prop) (dl : bool) (l l' : list val) : Prop :=
  match l, l' with
  | [], [] => True
  | x :: t, x' :: t' =>
      R (match t with [] => dl | _ => true end) x x' /\ conf_list R dl t t'
  | _, _ => False
  end.

(** an object none of whose readings supplies a mandatory field of [c] *)
Fixpoint missing_f (fs : fields) (d : dict) : Prop :=
  match fs with
  | FNil => False
  | FCons k _ fs' => dget k d = None \/ missing_f fs' d
  | FDefault _ _ _ fs' | FRebuild _ _ _ fs' | FPad _ _ fs' | FBits _ _ fs' => missing_f fs' d
  | FStopIf _ _ => False
  end.
Fixpoint missing (c : con) (v : val) : Prop :=
  match c with
  | CStruct fs => exists d, v = VDict d /\ missing_f fs d
  | CNamed name c1 => exists d, v = VDict d /\ dget name d = None /\ missing c1 v
  | CReversed _ c1 | CBitwise c1 => missing c1 v
  | _ => False
  end.
Fixpoint nostop (fs : fields) : bool :=
  match fs with
  | FNil => true
  | FCons _ _ fs' | FDefault _ _ _ fs' | FRebuild _ _ _ fs' | FPad _ _ fs' | FBits _ _ fs' => nostop fs'
  | FStopIf _ _ => false
  end.
(** every encoding of [ci] is too short for [cj] *)
Definition shorter (ci cj : con) : Prop :=
  (exists n, fsz ci = Some n /\ (n < minsz cj)%nat) \/
  (exists a b, ci = CStruct a /\ cj = CStruct (fapp a b) /\ nostop a = true /\ (0 < minszf b)%nat).
(** [v] belongs to alternative [ci] and not to the earlier alternative [cj] *)
Definition excl (dl : bool) (cj ci : con) (v : val) : Prop :=
  (exists t n sg z, cj = CAdapt (AEnum t) (CInt n sg) /\ ci = CInt n sg /\ as_int v = Some z /\ by_value t z = None) \/
  (dl = false /\ missing cj v /\ shorter ci cj).

(** the value of [this.k] / a constant *)
Definition eval_is (e : expr) (d : dict) (n : Z) : Prop :=
  match e with
  | EConst m => n = m
  | EGet k => exists v, dget k d = Some v /\ as_int v = Some n
  | ELen k => exists v l, dget k d = Some v /\ (v = VList l \/ v = VSet l \/ exists b, v = VBytes b /\ l = map VInt b)
              /\ n = Z.of_nat (length l)
  | ELenVals k => exists s v l d', dget k d = Some (VDict ((s, v) :: d'))
              /\ (v = VList l \/ v = VSet l \/ exists b, v = VBytes b /\ l = map VInt b) /\ n = Z.of_nat (length l)
  end.

(** StopIf(this.k == 0) *)
Definition is_zero (v : val) : bool := match num_of v with Some q => Qzero q | None => false end.

(** the entry under which the value of property [z] is found: the lower-case
    property name, or "sensor_setting_raw" when the property is unknown *)
Definition setting_entry (t : enum) (z : Z) (idv : val) (name : string) : Prop :=
  match by_value t z with
  | Some m => exists n, m = VEnum n z /\ idv = m /\ name = lower n
  | None => idv = VInt z /\ name = raw_name
  end.

Definition raw_bytes (x : val) (l : list Z) : Prop := bytes l /\ (x = VList (map VInt l) \/ x = VBytes l).

(** the entries of [b] override those of [a] *)
Fixpoint dmerge (a b : dict) : dict :=
  match b with [] => a | (k, v) :: b' => dmerge (dset k v a) b' end.

Section Conf.
Variable A : adapter -> val -> val -> val -> val -> Prop.

Fixpoint conf (c : con) (dl : bool) (eb ep : dict) (v v' : val) {struct c} : Prop :=
  match c with
  | CInt n sg => exists z, as_int v = Some z /\ fits (8 * Z.of_nat n) sg z /\ v' = VInt z
  | CBytesInt n _ => exists z, as_int v = Some z /\ fits (8 * Z.of_nat n) false z /\ v' = VInt z
  | CBits n sg => exists z, as_int v = Some z /\ fits (Z.of_nat n) sg z /\ v' = VInt z
  | CFlag => v' = VBool (truthy v)
  | CIeee n => exists b, v = VIeee n b /\ fits (8 * Z.of_nat n) false b /\ v' = v
  | CBytes n => exists l, v = VBytes l /\ bytes l /\ length l = n /\ v' = v
  | CGreedyBytes => dl = false /\ exists l, v = VBytes l /\ bytes l /\ v' = v
  | CGreedyString => dl = false /\ exists t l, v = VStr t /\ utf8_encode t = Some l /\ v' = v
  | CPaddedString e =>
      exists n t l, eval_is e eb n /\ eval_is e ep n /\ v = VStr t /\ utf8_encode t = Some l
                    /\ Z.of_nat (length l) <= n /\ last l 1 <> 0 /\ v' = v
  | CPascalString => exists t l, v = VStr t /\ utf8_encode t = Some l /\ (length l < 256)%nat /\ v' = v
  | CPrefixedBytes => exists l, v = VBytes l /\ bytes l /\ (length l < 256)%nat /\ v' = v
  | CPrefixedArray c1 =>
      exists l l', iter v = Some l /\ v' = VList l' /\ (length l < 256)%nat
                   /\ conf_list (fun dl x x' => conf c1 dl eb ep x x') dl l l'
  | CArray e c1 =>
      exists l l', iter v = Some l /\ v' = VList l'
                   /\ eval_is e eb (Z.of_nat (length l)) /\ eval_is e ep (Z.of_nat (length l))
                   /\ conf_list (fun dl x x' => conf c1 dl eb ep x x') dl l l'
  | CGreedyRange c1 =>
      dl = false /\
      exists l l', iter v = Some l /\ v' = VList l'
                   /\ conf_list (fun dl x x' => conf c1 dl eb ep x x') dl l l'
  | CStruct fs => exists d d', v = VDict d /\ v' = VDict d' /\ conf_fields fs dl d [] d d'
  | CBitwise c1 | CBytewise c1 => conf c1 dl eb ep v v'
  | CReversed _ c1 => conf c1 false eb ep v v'
  | CAdapt a c1 => exists w w', A a v w w' v' /\ conf c1 dl eb ep w w'
  | CSelect l => conf_alts l [] dl eb ep v v'
  | CNamed name c1 =>
      exists d d', v = VDict d /\ v' = VDict d'
                   /\ conf c1 dl eb ep (match dget name d with Some x => x | None => v end) v'
  | CSwitch k cs =>
      exists x x' z, dget k eb = Some x /\ dget k ep = Some x' /\ as_int x = Some z /\ as_int x' = Some z
                     /\ conf_case z cs dl eb ep v v'
  | CEnumSwitchStruct k cs =>
      exists x n z c d y y', dget k eb = Some x /\ as_int x = Some z /\ dget k ep = Some (VEnum n z)
        /\ find_case z cs = Some (n, c) /\ v = VDict d /\ dget (lower n) d = Some y
        /\ conf_case z cs dl eb ep y y' /\ v' = VDict [(lower n, y')]
  | CIfDefault k c1 df =>
      exists x x' z, dget k eb = Some x /\ dget k ep = Some x' /\ as_int x = Some z /\ as_int x' = Some z
                     /\ (if z =? 0 then v = df /\ v' = df else conf c1 dl eb ep v v')
  | COpcode t => exists z, as_int v = Some z /\ legal_opcode z /\ by_value t z = Some v'
  | CSwitchStruct k kc t sw cs =>
      exists d kv z n x x', v = VDict d /\ dget k d = Some kv /\ as_int kv = Some z
        /\ by_value t z = Some (VEnum n z)
        /\ (dget (lower n) d = Some x \/ dget (lower n) d = None /\ dget sw d = Some x)
        /\ conf kc true [(k, VEnum n z); (sw, x)] [] (VEnum n z) (VEnum n z)
        /\ conf_case z cs dl [(k, VEnum n z); (sw, x)] [(k, VEnum n z)] x x'
        /\ v' = VDict (dset (lower n) x' [(k, VEnum n z)])
  | CProp hdr t cs =>
      exists d h' idv idv' z n c x x', v = VDict d
        /\ conf hdr true eb ep v (VDict h')
        /\ dget "property_id" d = Some idv /\ as_int idv = Some z
        /\ by_value t z = Some (VEnum n z) /\ find_case z cs = Some (n, c)
        /\ dget "property_id" h' = Some idv' /\ as_int idv' = Some z
        /\ dget (lower n) d = Some x /\ conf_case z cs dl eb ep x x'
        /\ v' = VDict (dset (lower n) x' (dset "property_id" (VEnum n z) (ddel "property_id" h')))
  | CSensorSetting hdr t cs =>
      exists d h' idv idv' z idv2 name x x', v = VDict d
        /\ conf hdr true eb ep v (VDict h')
        /\ dget sid_name d = Some idv /\ as_int idv = Some z
        /\ dget sid_name h' = Some idv' /\ as_int idv' = Some z /\ (by_value t z = None -> idv' = VInt z)
        /\ setting_entry t z idv2 name
        /\ dget name d = Some x
        /\ match find_case z cs with
           | Some _ => conf_case z cs dl eb ep x x'
           | None => dl = false /\ exists l, raw_bytes x l /\ x' = VList (map VInt l)
           end
        /\ v' = VDict (dset name x' (dset sid_name idv2 (ddel sid_name h')))
  | CSensorData t cs =>
      exists d idv f ln len pid idv' name x x', v = VDict d
        /\ dget sid_name d = Some idv /\ as_int idv = Some pid
        /\ dget "format" d = Some f
        /\ dget "length" d = Some ln /\ as_int ln = Some len
        /\ (if truthy f then 1 <= len <= 128 /\ 0 <= pid < 65536 else 1 <= len <= 16 /\ 0 <= pid < 2048)
        /\ setting_entry t pid idv' name
        /\ dget name d = Some x
        /\ match find_case pid cs with
           | Some (_, c) => fsz c = Some (Z.to_nat len) /\ conf_case pid cs false eb ep x x'
           | None => exists l, raw_bytes x l /\ Z.of_nat (length l) = len /\ x' = VList (map VInt l)
           end
        /\ v' = VDict (dset name x' [("format"%string, VInt (if truthy f then 1 else 0));
                                     ("length"%string, VInt len); (sid_name, idv')])
  end
(** the fields of a Struct: [obj] the argument's entries, [d'] the entries read back *)
with conf_fields (fs : fields) (dl : bool) (eb ep obj d' : dict) {struct fs} : Prop :=
  match fs with
  | FNil => d' = ep
  | FCons k c fs' =>
      exists x x', dget k obj = Some x
        /\ conf c (match fs' with FNil => dl | _ => true end) eb ep x x'
        /\ conf_fields fs' dl (dset k x eb) (dset k x' ep) obj d'
  | FDefault k c df fs' =>
      exists x x', x = (match dget k obj with Some VNone | None => df | Some y => y end)
        /\ conf c (match fs' with FNil => dl | _ => true end) eb ep x x'
        /\ conf_fields fs' dl (dset k x eb) (dset k x' ep) obj d'
  | FRebuild k e c fs' =>
      exists n x', eval_is e eb n
        /\ conf c (match fs' with FNil => dl | _ => true end) eb ep (VInt n) x'
        /\ conf_fields fs' dl (dset k (VInt n) eb) (dset k x' ep) obj d'
  | FPad None n fs' => conf_fields fs' dl eb ep obj d'
  | FPad (Some k) n fs' =>
      conf_fields fs' dl (dset k (match dget k obj with Some x => x | None => VNone end) eb)
                  (if hidden k then ep else dset k VNone ep) obj d'
  | FStopIf k fs' =>
      exists x x', dget k eb = Some x /\ dget k ep = Some x' /\ is_zero x = is_zero x'
        /\ (if is_zero x then d' = ep else conf_fields fs' dl eb ep obj d')
  | FBits n bs fs' =>
      exists db, conf_fields bs false eb [] eb db /\ conf_fields fs' dl eb (dmerge ep db) obj d'
  end
(** the parameters selected by a key; no case: there are none *)
with conf_case (z : Z) (cs : cases) (dl : bool) (eb ep : dict) (v v' : val) {struct cs} : Prop :=
  match cs with
  | KNil => v = VNone /\ v' = VNone
  | KCons _ w c cs' => if Z.eqb z w then conf c dl eb ep v v' else conf_case z cs' dl eb ep v v'
  end
(** one alternative fits and the object cannot be read as an earlier one *)
with conf_alts (l : alts) (prev : list con) (dl : bool) (eb ep : dict) (v v' : val) {struct l} : Prop :=
  match l with
  | ANil => False
  | ACons c l' =>
      (conf c dl eb ep v v' /\ Forall (fun cj => excl dl cj c v) prev)
      \/ conf_alts l' (c :: prev) dl eb ep v v'
  end.
End Conf.

(** a complete message *)
Definition message A (c : con) (v v' : val) : Prop := conf A c false [] [] v v'.
