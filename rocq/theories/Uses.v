(** * Uses: which fields occur in the message declarations. *)
From Verif Require Import PyVal Bits Adapters Construct Access.

(** every adapted field of a declaration: the adapter and the field it wraps *)
Fixpoint uses (c : con) : list (adapter * con) :=
  match c with
  | CAdapt a c1 => (a, c1) :: uses c1
  | CPrefixedArray c1 | CArray _ c1 | CGreedyRange c1 | CBitwise c1 | CBytewise c1 | CReversed _ c1
  | CNamed _ c1 | CIfDefault _ c1 _ => uses c1
  | CStruct fs => uses_fields fs
  | CSelect l => uses_alts l
  | CSwitch _ cs | CEnumSwitchStruct _ cs | CSensorData _ cs => uses_cases cs
  | CSwitchStruct _ kc _ _ cs => uses kc ++ uses_cases cs
  | CProp h _ cs | CSensorSetting h _ cs => uses h ++ uses_cases cs
  | _ => []
  end
with uses_fields (fs : fields) : list (adapter * con) :=
  match fs with
  | FNil => []
  | FCons _ c fs' | FDefault _ c _ fs' | FRebuild _ _ c fs' => uses c ++ uses_fields fs'
  | FPad _ _ fs' | FStopIf _ fs' => uses_fields fs'
  | FBits _ bs fs' => uses_fields bs ++ uses_fields fs'
  end
with uses_cases (cs : cases) : list (adapter * con) :=
  match cs with KNil => [] | KCons _ _ c cs' => uses c ++ uses_cases cs' end
with uses_alts (l : alts) : list (adapter * con) :=
  match l with ANil => [] | ACons c l' => uses c ++ uses_alts l' end.

Definition all_uses : list (adapter * con) := flat_map (fun p => uses (snd p)) access_table.

(** syntactic equality of the simple declarations (false on the others) *)
Definition ostr_eqb (a b : option string) : bool :=
  match a, b with Some a, Some b => String.eqb a b | None, None => true | _, _ => false end.
Fixpoint con_eqb (a b : con) : bool :=
  match a, b with
  | CInt n s, CInt m t => Nat.eqb n m && Bool.eqb s t
  | CBytesInt n s, CBytesInt m t => Nat.eqb n m && Bool.eqb s t
  | CBits n s, CBits m t => Nat.eqb n m && Bool.eqb s t
  | CFlag, CFlag => true
  | CBytes n, CBytes m => Nat.eqb n m
  | CPaddedString (EConst n), CPaddedString (EConst m) => Z.eqb n m
  | CArray (EConst n) c, CArray (EConst m) c' => Z.eqb n m && con_eqb c c'
  | CGreedyRange c, CGreedyRange c' => con_eqb c c'
  | CBitwise c, CBitwise c' => con_eqb c c'
  | CReversed n c, CReversed m c' => Nat.eqb n m && con_eqb c c'
  | CNamed n c, CNamed m c' => String.eqb n m && con_eqb c c'
  | CStruct f, CStruct f' => fields_eqb f f'
  | CSelect l, CSelect l' => alts_eqb l l'
  | _, _ => false
  end
with fields_eqb (a b : fields) : bool :=
  match a, b with
  | FNil, FNil => true
  | FCons k c f, FCons k' c' f' => String.eqb k k' && con_eqb c c' && fields_eqb f f'
  | FPad k n f, FPad k' n' f' => ostr_eqb k k' && Nat.eqb n n' && fields_eqb f f'
  | FBits n g f, FBits n' g' f' => Nat.eqb n n' && fields_eqb g g' && fields_eqb f f'
  | FStopIf k f, FStopIf k' f' => String.eqb k k' && fields_eqb f f'
  | _, _ => false
  end
with alts_eqb (a b : alts) : bool :=
  match a, b with
  | ANil, ANil => true
  | ACons c l, ACons c' l' => con_eqb c c' && alts_eqb l l'
  | _, _ => false
  end.
Lemma con_eqb_mut :
  (forall a b, con_eqb a b = true -> a = b) /\ (forall a b, fields_eqb a b = true -> a = b)
  /\ (forall a : cases, True) /\ (forall a b, alts_eqb a b = true -> a = b).
Proof.
  apply con_mutind; intros; trivial;
    repeat match goal with
    | b : con |- _ => lazymatch goal with H : con_eqb _ b = true |- _ => destruct b; try discriminate H; cbn [con_eqb] in H end
    | b : fields |- _ => lazymatch goal with H : fields_eqb _ b = true |- _ => destruct b; try discriminate H; cbn [fields_eqb] in H end
    | b : alts |- _ => lazymatch goal with H : alts_eqb _ b = true |- _ => destruct b; try discriminate H; cbn [alts_eqb] in H end
    end;
    repeat match goal with
    | e : expr |- _ => destruct e; try discriminate
    | H : _ && _ = true |- _ => apply andb_prop in H as [? ?]
    | H : Nat.eqb _ _ = true |- _ => apply Nat.eqb_eq in H
    | H : Z.eqb _ _ = true |- _ => apply Z.eqb_eq in H
    | H : Bool.eqb _ _ = true |- _ => apply Bool.eqb_prop in H
    | H : String.eqb _ _ = true |- _ => apply String.eqb_eq in H
    | H : ostr_eqb ?a ?b = true |- _ => assert (a = b) by (destruct a, b; cbn in H; try discriminate; [apply String.eqb_eq in H; congruence|reflexivity]); clear H
    end;
    repeat match goal with
    | IH : forall b, con_eqb ?a b = true -> ?a = b, H : con_eqb ?a ?b = true |- _ => apply IH in H
    | IH : forall b, fields_eqb ?a b = true -> ?a = b, H : fields_eqb ?a ?b = true |- _ => apply IH in H
    | IH : forall b, alts_eqb ?a b = true -> ?a = b, H : alts_eqb ?a ?b = true |- _ => apply IH in H
    end; subst; reflexivity.
Qed.
Lemma con_eqb_spec a b : con_eqb a b = true -> a = b.
Proof. apply con_eqb_mut. Qed.
