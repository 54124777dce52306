(** * CarryCheck: what survives the way through Cap'n Proto, by declaration and schema (basis of C55). *)
From Verif Require Import PyVal Bits Float64 FloatX Utf8 Adapters AdapterSpec Construct Size Spec Master Deps Uses Reread P_int P_layout Sound SoundAdapt Vocab Access AccessProofs Names P_names Capnp G_capnp P_capnp P_schema Shape P_fits Recode Carry CarryAdapt.
Local Open Scope list_scope.
Local Open Scope Z_scope.

Section CarryCheck.
Variable sch : schema.
Local Notation nexts := (Carry.nexts sch).
Definition nil_b {A} (l : list A) : bool := match l with [] => true | _ => false end.
Definition unnamed (c : con) : bool := match sh [] c with SRec None _ => true | _ => false end.
(** an earlier alternative does not accept what a later one decoded, as it is or under the later one's name *)
Definition refused (ci : con) (ni : string) (cj : con) : bool :=
  match keys_of ci with Some ks => missb ks cj | None => false end && missb [ni] cj.
(** a field that other fields refer to: a number, or a list that is counted *)
Fixpoint fcon (j : string) (fs : fields) : option con :=
  match fs with
  | FCons k c fs' | FRebuild k _ c fs' => if String.eqb j k then Some c else fcon j fs'
  | FPad _ _ fs' => fcon j fs'
  | _ => None
  end.
Definition listcon (c : con) : bool := match c with CArray _ _ | CGreedyRange _ | CPrefixedArray _ => true | _ => false end.
Fixpoint listcases (cs : cases) : bool := match cs with KNil => true | KCons n _ c cs' => vis (lower n) && listcon c && listcases cs' end.
Definition islist (tg : target) : bool := match elem tg with Some _ => true | None => false end.
Fixpoint case_keys (cs : cases) : list string := match cs with KNil => [] | KCons n _ _ cs' => lower n :: case_keys cs' end.
Definition depb (fs : fields) (tg : target) (k : string) : bool :=
  vis k && match fcon k fs with
  | Some c => match kind_of c with
      | Some _ => forallb intty (nexts tg (camelcase k))
      | None => match c with
          | CArray _ _ => forallb islist (nexts tg (camelcase k))
          | CBytewise (CEnumSwitchStruct _ cs) => listcases cs && forallb (fun tg1 => forallb (fun j => forallb islist (nexts tg1 (camelcase j))) (case_keys cs)) (nexts tg (camelcase k))
          | _ => false
          end
      end
  | None => false
  end.
Definition rawb (tg : target) : bool := match elem tg with Some t => intty (TT t) | None => false end.
Definition cased_b (t : enum) (z : Z) : bool := match by_value t z with Some _ => true | None => false end.
Fixpoint case_vals (cs : cases) : list Z := match cs with KNil => [] | KCons _ z _ cs' => z :: case_vals cs' end.
(** the number and the value of a sensor setting: every member of the enum has a case and the other way round; raw bytes are a list of ints *)
Definition setting (t : enum) (cs : cases) (tg : target) : bool :=
  case_names t cs && forallb (fun p => existsb (Z.eqb (snd p)) (case_vals cs)) t && forallb (cased_b t) (case_vals cs) && nil_b (depsk cs) && forallb (fun p => vis (lower (fst p))) t
  && forallb intty (nexts tg (camelcase sid_name)) && forallb rawb (nexts tg (camelcase raw_name)).
(** a wide and a narrow form with the same fields: only the wide one *)
Definition wide (l : alts) (tg : target) (C : conds) : bool :=
  match l with
  | ACons (CNamed n (CStruct f)) (ACons (CNamed m g) ANil) => negb (String.eqb n "") && negb (String.eqb m "") && vis m && unnamed (CStruct f) && unnamed g && here Absent (under m C)
      && forallb (fun tg1 => forallb (fun k => forallb intty (nexts tg1 (camelcase k))) (names f)) (nexts tg n)
  | _ => false
  end.
Fixpoint rt (c : con) (tg : target) (C : conds) {struct c} : bool :=
  match c with
  | CInt _ _ | CBytesInt _ _ | CBits _ _ | COpcode _ => intty tg
  | CFlag | CIeee _ => true
  | CGreedyString | CPascalString | CPaddedString _ => textty tg
  | CPrefixedArray c1 | CArray _ c1 | CGreedyRange c1 => match elem tg with Some t => rt c1 (TT t) [] | None => false end
  | CStruct fs => forallb (depb fs tg) (fdeps fs) && unnamed c && rtf fs tg C
  | CBitwise c1 | CBytewise c1 | CReversed _ c1 => rt c1 tg C
  | CAdapt a c1 => rta sch a tg && nil_b (deps c1)
  | CSelect l => match kind_of c with Some (KP _) => intty tg | _ => if wide_select l then wide l tg C else rtal [] l tg C end
  | CNamed n c1 => chain c1 && vis n && negb (String.eqb n "") && unnamed c1 && match keys_of c1 with Some ks => negb (smem n ks) | None => false end
      && forallb (fun tg1 => here Absent (under n C) || rt c1 tg1 (under n C)) (nexts tg n)
  | CSwitchStruct j kc t sw cs =>
      match kind_of kc with Some (KE t') => enum_eqb t t' | _ => false end && vis j
      && nil_b (deps kc) && negb (smem sw (depsk cs)) && negb (smem j (map (fun p => lower (fst p)) t)) && forallb intty (nexts tg (camelcase j)) && case_names t cs && rtk cs tg C
  | CProp hdr t cs => idfield "property_id" t hdr && case_names t cs && forallb intty (nexts tg (camelcase "property_id")) && rt hdr tg C && rtk cs tg C
  | CSensorSetting hdr t cs => idfield sid_name t hdr && setting t cs tg && rt hdr tg C && rtk cs tg C
  | CIfDefault _ c1 dv => intc c1 && match dv with VInt _ => true | _ => false end && intty tg
  | CEnumSwitchStruct j cs => Master.distinct (case_keys cs) && rtk cs tg C
  | _ => false
  end
with rtf (fs : fields) (tg : target) (C : conds) {struct fs} : bool :=
  match fs with
  | FNil => true
  | FCons k c fs' => forallb (fun tg1 => here Absent (under (camelcase k) C) || rt c tg1 (under (camelcase k) C)) (nexts tg (camelcase k)) && rtf fs' tg C
  | FDefault k c _ fs' => match c with CGreedyRange _ => true | _ => false end
      && forallb (fun tg1 => here Absent (under (camelcase k) C) || rt c tg1 (under (camelcase k) C)) (nexts tg (camelcase k)) && rtf fs' tg C
  | FRebuild _ _ c fs' => nil_b (deps c) && rtf fs' tg C
  | FPad j _ fs' => match j with Some j => hidden j | None => true end && rtf fs' tg C
  | FStopIf _ _ => false
  | FBits _ bs fs' => rtf bs tg C && rtf fs' tg C
  end
with rtk (cs : cases) (tg : target) (C : conds) {struct cs} : bool :=
  match cs with
  | KNil => true
  | KCons n _ c cs' => vis (lower n) && forallb (fun tg1 => here Absent (under (camelcase (lower n)) C) || rt c tg1 (under (camelcase (lower n)) C)) (nexts tg (camelcase (lower n))) && rtk cs' tg C
  end
with rtal (prev : list con) (l : alts) (tg : target) (C : conds) {struct l} : bool :=
  match l with
  | ANil => true
  | ACons c l' => match c with CNamed n c1 => forallb (refused c n) prev | _ => false end
      && nil_b (deps c) && rt c tg C && rtal (c :: prev) l' tg C
  end.
End CarryCheck.
