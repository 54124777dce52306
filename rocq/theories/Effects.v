(** * Effects: what build does to the caller's object.
    [build] of Construct.v is a function of the object; in the code the object is mutable and three places
    assign to it: KeyIndicesAdapter._encode (config.py:702-707), TimeAdapter._encode (time.py:229-233) and
    _AccessMessage._build (__init__.py:90).  (construct's own _build methods only write to the context, a
    fresh Container.)  [after c ctx v] is the caller's object when the call of [build c ctx v] is over,
    whether it returned or raised.
    Simplifications: the object is a tree (no list or dict reachable by two ways); a subconstruct that
    follows a mutating one in the same struct, or in the same Select, is taken to see the object as it was
    (in the declarations none reads the mutated part). *)
From Verif Require Import PyVal Float64 FloatX Adapters Construct
  Access.
Local Open Scope list_scope.
Local Open Scope Z_scope.

(** config.py:695-709: obj.sort() and obj.pop() until the list is empty.  sort() on anything but a list is
    an AttributeError, and items that cannot be compared make sort() raise before anything is popped. *)
Definition key_indices_after (v : val) : val :=
  match v with
  | VList l => if forallb is_intlike l then VList [] else v
  | _ => v
  end.

(** time.py:213-233: a float uncertainty, then an int TAI-UTC delta, are replaced by timedelta objects.  The
    date is looked up (and, given as a dict, converted) before. *)
Definition time_after (v : val) : val :=
  match v with
  | VDict d =>
      match dget "date" d, dget "uncertainty" d with
      | Some dt, Some u =>
          if match dt with VDict _ => match datetime_of dt with Ok _ => true | _ => false end | _ => true end then
            let d1 := match u with VFloat x => dset "uncertainty" (VTimedelta (us_of_float x)) d | _ => d end in
            match dget "tai_utc_delta" d1 with
            | Some y => match as_int y with
                        | Some s => VDict (dset "tai_utc_delta" (VTimedelta (s * 1000000)) d1)
                        | None => VDict d1
                        end
            | None => VDict d1
            end
          else v
      | _, _ => v
      end
  | _ => v
  end.

(** adapters whose _encode returns its argument: the subconstruct then works on the caller's own object *)
Definition returns_argument (a : adapter) : bool :=
  match a with ARange _ _ | AMask _ | AAddrIn _ | AAddrOut _ | ASet => true | _ => false end.

Definition ok {A} (r : res A) : bool := match r with Ok _ => true | _ => false end.

(** the elements are built in order, up to the first that fails *)
Fixpoint after_list (b : val -> res (list Z)) (f : val -> val) (l : list val) : list val :=
  match l with
  | [] => []
  | x :: l' => f x :: (if ok (b x) then after_list b f l' else l')
  end.
(** the value at [k] is handed on and may have changed *)
Definition upd (k : string) (f : val -> val) (d : dict) : dict :=
  match dget k d with Some x => dset k (f x) d | None => d end.

Fixpoint after (c : con) (ctx : dict) (v : val) {struct c} : val :=
  match c with
  | CInt _ _ | CBytesInt _ _ | CBits _ _ | CFlag | CIeee _ | CBytes _ | CGreedyBytes | CGreedyString
  | CPaddedString _ | CPascalString | CPrefixedBytes | COpcode _ => v
  | CPrefixedArray c1 | CArray _ c1 | CGreedyRange c1 =>
      match v with VList l => VList (after_list (build c1 ctx) (after c1 ctx) l) | _ => v end
  | CStruct fs => match v with VDict d => VDict (after_fields fs d d) | _ => v end
  | CBitwise c1 | CBytewise c1 | CReversed _ c1 => after c1 ctx v
  | CAdapt a c1 =>
      match a with
      | AKeyIndices => key_indices_after v
      | ATime => time_after v
      | _ => if returns_argument a && ok (encode a v) then after c1 ctx v else v
      end
  | CSelect l => after_alts l ctx v
  | CNamed name c1 =>
      match v with
      | VDict d => match dget name d with
                   | Some x => VDict (dset name (after c1 ctx x) d)
                   | None => after c1 ctx v
                   end
      | _ => v
      end
  | CSwitch k cs =>
      match dget k ctx with
      | Some kv => match int_key kv with Some z => after_case z cs ctx v | None => v end
      | None => v
      end
  | CEnumSwitchStruct k cs =>
      match dget k ctx with
      | Some kv => match int_key kv with
                   | Some z => match find_case z cs, v with
                               | Some (n, _), VDict d => VDict (upd (lower n) (after_case z cs ctx) d)
                               | _, _ => v
                               end
                   | None => v
                   end
      | None => v
      end
  | CIfDefault k c1 _ =>
      match dget k ctx with
      | Some kv => if truthy kv then after c1 ctx v else v
      | None => v
      end
  | CSwitchStruct k kc t sw cs =>
      match v with
      | VDict d =>
          match dget k d with
          | Some kv =>
              match int_key kv with
              | Some z =>
                  match by_value t z with
                  | Some (VEnum n w) =>
                      let at_ := match dget (lower n) d with Some _ => lower n | None => sw end in
                      match dget at_ d with
                      | Some x =>
                          let ctx' := [(k, VEnum n w); (sw, x)] in
                          if ok (build kc ctx' (VEnum n w)) then VDict (dset at_ (after_case w cs ctx' x) d) else v
                      | None => v
                      end
                  | _ => v
                  end
              | None => v
              end
          | None => v
          end
      | _ => v
      end
  | CProp hdr t cs =>
      let v1 := after hdr ctx v in
      if ok (build hdr ctx v) then
        match v1 with
        | VDict d =>
            match dget "property_id" d with
            | Some idv => match int_key idv with
                          | Some z => match by_value t z with
                                      | Some (VEnum n w) => VDict (upd (lower n) (after_case w cs ctx) d)
                                      | _ => v1
                                      end
                          | None => v1
                          end
            | None => v1
            end
        | _ => v1
        end
      else v1
  | CSensorSetting hdr t cs =>
      let v1 := after hdr ctx v in
      if ok (build hdr ctx v) then
        match v1 with
        | VDict d =>
            match dget sid_name d with
            | Some idv =>
                let (idv', name) := setting_id t idv in
                match int_key idv' with
                | Some z => VDict (upd (match dget name d with Some _ => name | None => raw_name end) (after_case z cs ctx) d)
                | None => v1
                end
            | None => v1
            end
        | _ => v1
        end
      else v1
  | CSensorData t cs =>
      match v with
      | VDict d =>
          match dget sid_name d with
          | Some idv =>
              let (_, name) := setting_id t idv in
              match as_int idv with
              | Some pid => VDict (upd (match dget name d with Some _ => name | None => raw_name end) (after_case pid cs ctx) d)
              | None => v
              end
          | None => v
          end
      | _ => v
      end
  end
(** Struct._build; a field that raises stops it.  EmbeddedBitStruct works on the context (numbers only). *)
with after_fields (fs : fields) (ctx : dict) (obj : dict) {struct fs} : dict :=
  match fs with
  | FNil => obj
  | FCons k c fs' =>
      match dget k obj with
      | None => obj
      | Some x => let obj' := dset k (after c ctx x) obj in
                  if ok (build c ctx x) then after_fields fs' (dset k x ctx) obj' else obj'
      end
  | FDefault k c d fs' =>
      match dget k obj with
      | None | Some VNone => after_fields fs' (dset k d ctx) obj
      | Some x => let obj' := dset k (after c ctx x) obj in
                  if ok (build c ctx x) then after_fields fs' (dset k x ctx) obj' else obj'
      end
  | FRebuild k e c fs' =>
      match eval e ctx with
      | Ok n => if ok (build c ctx (VInt n)) then after_fields fs' (dset k (VInt n) ctx) obj else obj
      | _ => obj
      end
  | FPad k n fs' => after_fields fs' (match k with Some k => dset k (dgetn k obj) ctx | None => ctx end) obj
  | FStopIf k fs' =>
      match dget k ctx with
      | Some v => if match num_of v with Some q => Qzero q | None => false end then obj else after_fields fs' ctx obj
      | None => obj
      end
  | FBits n bs fs' => if ok (build_fields bs ctx ctx) then after_fields fs' ctx obj else obj
  end
with after_case (z : Z) (cs : cases) (ctx : dict) (v : val) {struct cs} : val :=
  match cs with
  | KNil => v
  | KCons _ w c cs' => if Z.eqb z w then after c ctx v else after_case z cs' ctx v
  end
with after_alts (l : alts) (ctx : dict) (v : val) {struct l} : val :=
  match l with
  | ANil => v
  | ACons c l' => match build c ctx v with
                  | Err _ => after_alts l' ctx (after c ctx v)
                  | _ => after c ctx v
                  end
  end.

(** __init__.py:84-98: an opcode given by name is replaced by the member it names; then the message is built
    from the same object. *)
Definition access_after (v : val) : val :=
  match v with
  | VDict d =>
      match dget "opcode" d with
      | Some (VStr s) => match access_by_name s with
                         | Some (m, c) => after c [] (VDict (dset "opcode" m d))
                         | None => v
                         end
      | Some op => match int_key op with
                   | Some z => match access_lookup z with Some (_, c) => after c [] v | None => v end
                   | None => v
                   end
      | None => v
      end
  | _ => v
  end.
