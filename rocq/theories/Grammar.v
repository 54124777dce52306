(** * Grammar: contents of variable length (specification of C57).

    A small description language for octet strings made of counted lists, lists that run to the end, tagged values and
    records, and the relation between a Python value and its octets that such a description stands for.  Nothing here refers
    to the declarations of the library. *)
From Verif Require Import PyVal Bits Utf8 Codes.
Local Open Scope list_scope.
Local Open Scope Z_scope.

Inductive fmt :=
| FU (n : nat)                                        (* an unsigned number of n octets, little endian *)
| FS (n : nat)                                        (* a two's complement number of n octets, little endian *)
| FE (n : nat) (t : codes)                            (* one of the codes t, as a (two's complement) number of n octets *)
| FFloat (n : nat)                                    (* the IEEE 754 pattern, n octets, little endian *)
| FBlob                                               (* one octet with the length, octets *)
| FText                                               (* one octet with the length, UTF-8 text *)
| FAll                                                (* the octets to the end *)
| FWord (n : nat) (l : list (string * nat))           (* n octets, a little endian number made of the named fields of so many bits, the first one on top *)
| FCount (f : fmt)                                    (* one octet with the number of items, items *)
| FRest (f : fmt)                                     (* items to the end: a list *)
| FRestSet (f : fmt)                                  (* items to the end: a set *)
| FRec (l : list (string * field))                    (* fields one after the other *)
| FForms (l1 : list (string * field)) (n1 n2 : string) (k : string) (f : fmt)   (* the fields l1, then k unless it is left out; the forms' names *)
| FCase (k o : string) (l : list (string * Z * fmt))  (* one octet with the code of key k; under the key o the contents for that code *)
| FOwn (k : string) (l : list (string * Z * fmt))     (* the same, under the code's own name in lower case *)
| FLeaf (P : val -> list Z -> Prop)
| FFlag                                               (* one octet: 0 is false, 1 (any other, when received) is true *)
with field :=
| Plain (f : fmt)
| Items (k : string) (f : fmt).                       (* as many items as the field k says *)

(** the number made of fields of so many bits *)
Fixpoint width (l : list (string * nat)) : nat := match l with [] => O | (_, w) :: l' => (w + width l')%nat end.
Inductive packed : list (string * nat) -> dict -> Z -> Prop :=
| packed_nil : packed [] [] 0
| packed_cons k w l z d N : 0 <= z < 2 ^ Z.of_nat w -> packed l d N -> packed ((k, w) :: l) ((k, VInt z) :: d) (z * 2 ^ Z.of_nat (width l) + N).

(** [enc true f v s]: the value [v], sent as [f], is the octets [s]; [enc false f v s]: the octets [s], received as [f],
    are the value [v].  They differ only for sets (an element received twice is there once) and for messages with two forms
    (the received object carries the name of its form). *)
Inductive enc (out : bool) : fmt -> val -> list Z -> Prop :=
| enc_u n z : 0 <= z < 256 ^ Z.of_nat n -> enc out (FU n) (VInt z) (to_le n z)
| enc_s n z : - 256 ^ Z.of_nat n <= 2 * z < 256 ^ Z.of_nat n -> enc out (FS n) (VInt z) (to_le n (z mod 256 ^ Z.of_nat n))
| enc_e n t m z : In (m, z) t -> enc out (FE n t) (VEnum m z) (to_le n (z mod 256 ^ Z.of_nat n))
| enc_float n b : 0 <= b < 256 ^ Z.of_nat n -> enc out (FFloat n) (VIeee n b) (to_le n b)
| enc_blob l : (length l < 256)%nat -> enc out FBlob (VBytes l) (Z.of_nat (length l) :: l)
| enc_text t l : utf8_encode t = Some l -> (length l < 256)%nat -> enc out FText (VStr t) (Z.of_nat (length l) :: l)
| enc_all l : enc out FAll (VBytes l) l
| enc_word n l d N : packed l d N -> enc out (FWord n l) (VDict d) (to_le n N)
| enc_count f l s : enc_list out f l s -> (length l < 256)%nat -> enc out (FCount f) (VList l) (Z.of_nat (length l) :: s)
| enc_rest f l s : enc_list out f l s -> enc out (FRest f) (VList l) s
| enc_set_out f l s : out = true -> enc_list out f l s -> enc out (FRestSet f) (VSet l) s
| enc_set_in f l l0 s : out = false -> enc_list out f l0 s -> (forall x, In x l -> In x l0) -> (forall x, In x l0 -> exists y, In y l /\ as_int y = as_int x) ->
    enc out (FRestSet f) (VSet l) s
| enc_rec l d s : enc_fields out [] l d s -> enc out (FRec l) (VDict d) s
| enc_long l1 n1 n2 k f d s : enc_fields out [] (l1 ++ [(k, Plain f)]) d s ->
    enc out (FForms l1 n1 n2 k f) (VDict (if out then d else d ++ [("_name"%string, VStr (cps n1))])) s
| enc_short l1 n1 n2 k f d s : enc_fields out [] l1 d s -> enc out (FForms l1 n1 n2 k f) (VDict (if out then d else d ++ [("_name"%string, VStr (cps n2))])) s
| enc_case k o l m z f x s : In (m, z, f) l -> enc out f x s -> enc out (FCase k o l) (VDict [(k, VEnum m z); (o, x)]) (z :: s)
| enc_own k l m z f x s : In (m, z, f) l -> enc out f x s -> enc out (FOwn k l) (VDict [(k, VEnum m z); (lower m, x)]) (z :: s)
| enc_leaf (P : val -> list Z -> Prop) v s : P v s -> enc out (FLeaf P) v s
| enc_flag x : 0 <= x < 256 -> (out = true -> x <= 1) -> enc out FFlag (VBool (negb (x =? 0))) [x]
with enc_list (out : bool) : fmt -> list val -> list Z -> Prop :=
| enc_nil f : enc_list out f [] []
| enc_cons f x l a s : enc out f x a -> enc_list out f l s -> enc_list out f (x :: l) (a ++ s)
(** the second argument: the fields before *)
with enc_fields (out : bool) : dict -> list (string * field) -> dict -> list Z -> Prop :=
| enc_fnil e : enc_fields out e [] [] []
| enc_plain e k f l x d a s : enc out f x a -> enc_fields out (e ++ [(k, x)]) l d s -> enc_fields out e ((k, Plain f) :: l) ((k, x) :: d) (a ++ s)
| enc_items e k kc f l xs d a s w : enc_list out f xs a -> dget kc e = Some w -> as_int w = Some (Z.of_nat (length xs)) -> enc_fields out (e ++ [(k, VList xs)]) l d s ->
    enc_fields out e ((k, Items kc f) :: l) ((k, VList xs) :: d) (a ++ s).
Scheme enc_mi := Minimality for enc Sort Prop
  with enc_list_mi := Minimality for enc_list Sort Prop
  with enc_fields_mi := Minimality for enc_fields Sort Prop.
Combined Scheme enc_mutind from enc_mi, enc_list_mi, enc_fields_mi.

(** ** Items with a predicate of their own *)
(** an unsigned number of n octets that meets P *)
Definition number (n : nat) (P : Z -> Prop) (v : val) (s : list Z) : Prop := exists z, v = VInt z /\ 0 <= z < 256 ^ Z.of_nat n /\ P z /\ s = to_le n z.
(** a property identifier: by name if it is in the table, else as a number *)
Definition property_item (v : val) (s : list Z) : Prop :=
  (exists m z, v = VEnum m z /\ In (m, z) property_ids /\ s = to_le 2 z) \/
  (exists z, v = VInt z /\ 0 <= z < 65536 /\ (forall m, ~ In (m, z) property_ids) /\ s = to_le 2 z).
(** Mesh Protocol 4.2.2.2, model relations.  An extended model: short, five bits of index and three of offset; long, an octet each. *)
Definition short_item (v : val) (b : Z) : Prop :=
  exists i o, v = VDict [("model_item_index"%string, VInt i); ("element_offset"%string, VInt o)] /\ 0 <= i < 32 /\ -4 <= o < 4 /\ b = i * 8 + o mod 8.
Definition long_item : fmt := FRec [("model_item_index"%string, Plain (FU 1)); ("element_offset"%string, Plain (FS 1))].
Definition relation_item (v : val) (s : list Z) : Prop :=
  exists (long : bool) (xs : list val) (p id : Z) (l : list Z),
    (length xs < 64)%nat /\ (p = 1 /\ 0 <= id < 256 \/ p = 0 /\ id = 0) /\
    v = VDict [("extended_items_count"%string, VInt (Z.of_nat (length xs)));
               ("format"%string, if long then VEnum "LONG" 1 else VEnum "SHORT" 0);
               ("corresponding_present"%string, VInt p); ("corresponding_id"%string, VInt id);
               ("extended_models_items"%string, VDict [((if long then "long" else "short")%string, VList xs)])] /\
    (if long then enc_list true long_item xs l else Forall2 short_item xs l) /\
    s = (Z.of_nat (length xs) * 4 + (if long then 2 else 0) + p) :: (if Z.eqb p 1 then [id] else []) ++ l.

(** ** The grammars *)
Local Open Scope string_scope.
Definition plain (l : list (string * fmt)) : fmt := FRec (map (fun q => (fst q, Plain (snd q))) l).
Definition empty : fmt := plain [].
Definition unicast_address := FLeaf (number 2 (fun z => 1 <= z < 0x8000)%Z).
Definition unicast_or_none := FLeaf (number 2 (fun z => 0 <= z < 0x8000)%Z).
Definition property_id := FLeaf property_item.
(** *** RRULE scheduler (RFC 5545 recurrence rules) *)
Definition freqs : codes := [("SECONDLY", 0); ("MINUTELY", 1); ("HOURLY", 2); ("DAILY", 3); ("WEEKLY", 4); ("MONTHLY", 5); ("YEARLY", 6)].
Definition days : codes :=
  [("PREVIOUS_SUNDAY", -7); ("PREVIOUS_SATURDAY", -6); ("PREVIOUS_FRIDAY", -5); ("PREVIOUS_THURSDAY", -4); ("PREVIOUS_WEDNESDAY", -3);
   ("PREVIOUS_TUESDAY", -2); ("PREVIOUS_MONDAY", -1); ("NEXT_MONDAY", 1); ("NEXT_TUESDAY", 2); ("NEXT_WEDNESDAY", 3); ("NEXT_THURSDAY", 4);
   ("NEXT_FRIDAY", 5); ("NEXT_SATURDAY", 6); ("NEXT_SUNDAY", 7)].
Definition date_time : fmt := FWord 5 [("second", 6%nat); ("minute", 6%nat); ("hour", 5%nat); ("day", 5%nat); ("month", 4%nat); ("year", 14%nat)].
Definition rule : fmt := FCase "rule_id" "rule"
  [("FREQ", 0, FE 1 freqs); ("UNTIL", 1, date_time); ("COUNT", 2, FU 2); ("INTERVAL", 3, FU 2); ("BYSECOND", 4, FCount (FU 1));
   ("BYMINUTE", 5, FCount (FU 1)); ("BYHOUR", 6, FCount (FU 1)); ("BYDAY", 7, FCount (FE 1 days)); ("BYMONTHDAY", 8, FCount (FS 1));
   ("BYYEARDAY", 9, FCount (FS 2)); ("BYWEEKNO", 10, FCount (FS 1)); ("BYMONTH", 11, FU 2); ("BYSETPOS", 12, FCount (FS 2));
   ("DTSTART", 13, date_time); ("EXPLICIT_RDATE", 14, FCount date_time); ("EXCLUSIONS_RDATE", 15, FCount date_time)].
Definition slot : fmt := plain [("slot_id", FU 2); ("element", FU 1); ("slot_parameter", FBlob)].
Definition register_entry : fmt := plain [("array_of_slots", FCount slot); ("rules", FRest rule)].
Definition scheduler_mode : fmt := plain [("scheduler_mode", FE 1 scheduler_modes)].
Definition entry_id : fmt := plain [("entry_id", FU 1)].
Definition rrule : fmt := FCase "subopcode" "payload"
  [("RULES_LIST_GET", 0, empty); ("RULES_LIST_STATUS", 1, plain [("rule_ids", FRestSet (FE 1 rule_ids))]);
   ("REGISTER_MAX_SIZE_GET", 2, empty); ("REGISTER_MAX_SIZE_STATUS", 3, plain [("register_max_size", FU 4)]);
   ("SCHEDULER_MODE_GET", 4, empty); ("SCHEDULER_MODE_SET", 5, scheduler_mode); ("SCHEDULER_MODE_STATUS", 6, scheduler_mode);
   ("SCHEDULE_REGISTER_ENTRY_GET", 7, entry_id);
   ("SCHEDULE_REGISTER_ENTRY_SET", 8, plain [("entry_id", FU 1); ("scheduler_register_entry", register_entry)]);
   ("SCHEDULE_REGISTER_ENTRY_DELETE", 9, entry_id); ("SCHEDULE_REGISTER_ENTRY_DELETE_ALL", 10, empty);
   ("SCHEDULE_REGISTER_ENTRY_STATUS", 11,
      FForms [("entry_id", Plain (FU 1)); ("status", Plain (FE 1 rrule_status_codes))] "optional" "minimal" "scheduler_register_entry" register_entry);
   ("SCHEDULE_REGISTER_LIST_GET", 12, empty); ("SCHEDULE_REGISTER_LIST_STATUS", 13, plain [("entry_ids", FRestSet (FU 1))])].
(** *** Debug V2: a list of typed values *)
Definition typed_value : fmt := FOwn "data_type"
  [("UINT8", 0, FU 1); ("UINT16", 1, FU 2); ("UINT32", 2, FU 4); ("UINT64", 3, FU 8); ("INT8", 4, FS 1); ("INT16", 5, FS 2); ("INT32", 6, FS 4);
   ("INT64", 7, FS 8); ("FLOAT", 8, FFloat 4); ("DOUBLE", 9, FFloat 8); ("ENUM", 10, FU 1); ("STRING", 11, FText); ("ARRAY", 12, FCount (FU 1));
   ("INVALID", 255, empty)].
Definition debug_v2 : fmt := plain [("subopcode", FE 1 debugV2_subopcodes); ("parameter_type", FU 1); ("page_number", FU 1); ("payload", FRest typed_value)].
(** *** Composition data (Mesh Protocol 4.2.2) *)
Definition sig_model : fmt := plain [("model_id", FU 2)].
Definition vendor_model : fmt := plain [("vendor_id", FU 2); ("model_id", FU 2)].
Definition page0_element : fmt :=
  FRec [("location", Plain (FE 2 locations)); ("sig_number", Plain (FU 1)); ("vendor_number", Plain (FU 1));
        ("sig_models", Items "sig_number" sig_model); ("vendor_models", Items "vendor_number" vendor_model)].
Definition page0 : fmt :=
  plain [("cid", FU 2); ("pid", FU 2); ("vid", FU 2); ("crpl", FU 2); ("features", FU 2); ("elements", FRest page0_element)].
Definition page1_element : fmt :=
  FRec [("number_s", Plain (FU 1)); ("number_v", Plain (FU 1)); ("sig_models", Items "number_s" (FLeaf relation_item));
        ("vendor_models", Items "number_v" (FLeaf relation_item))].
Definition page2_record : fmt :=
  FRec [("mesh_profile_identifier", Plain (FU 2)); ("version", Plain (plain [("version_x", FU 1); ("version_y", FU 1); ("version_z", FU 1)]));
        ("num_element_offsets", Plain (FU 1)); ("element_offset_list", Items "num_element_offsets" (FU 1));
        ("additional_data_len", Plain (FU 2)); ("additional_data", Items "additional_data_len" (FU 1))].
Definition composition : fmt := FOwn "page"
  [("ZERO", 0, page0); ("FIRST", 1, plain [("element", FRest page1_element)]); ("SECOND", 2, plain [("record_list", FRest page2_record)]);
   ("TWO_HUNDRED_AND_FIFTY_FIFTH", 255, FAll)].
(** *** Lists *)
Definition subscription_list (model : fmt) : fmt :=
  plain [("status", FE 1 status_codes); ("element_address", unicast_address); ("model", model); ("addresses", FRest (FU 2))].
Definition property_list : fmt := plain [("property_ids", FRest property_id)].

(** The messages whose parameters are described, with their opcodes, *)
Definition grammars : list (string * Z * fmt) :=
  [("SILVAIR_RRULE_SCHEDULER", 0xE83601, rrule); ("SILVAIR_DEBUG_V2", 0xEB3601, debug_v2); ("CONFIG_COMPOSITION_DATA_STATUS", 0x02, composition);
   ("CONFIG_SIG_MODEL_SUBSCRIPTION_LIST", 0x802A, subscription_list sig_model);
   ("CONFIG_VENDOR_MODEL_SUBSCRIPTION_LIST", 0x802C, subscription_list vendor_model);
   ("SCENE_REGISTER_STATUS", 0x8245, plain [("status_code", FE 1 scene_status_codes); ("current_scene", FU 2); ("scenes", FRest (FU 2))]);
   ("GENERIC_USER_PROPERTIES_STATUS", 0x4B, property_list); ("GENERIC_ADMIN_PROPERTIES_STATUS", 0x47, property_list);
   ("GENERIC_MANUFACTURER_PROPERTIES_STATUS", 0x43, property_list); ("GENERIC_CLIENT_PROPERTIES_STATUS", 0x50, property_list);
   ("SENSOR_SETTINGS_STATUS", 0x58, plain [("sensor_property_id", property_id); ("sensor_setting_property_ids", FRest property_id)])].
(** and the sub-messages: opcode, sub-opcode. *)
Definition sub_grammars : list (string * Z * string * Z * fmt) :=
  [("SILVAIR_DEBUG", 0xF53601, "ARAP_LIST_CONTENT_STATUS", 36,
      plain [("current_page", FU 1); ("last_page", FU 1); ("nodes", FRest (FWord 5 [("sequence", 24%nat); ("ivi", 1%nat); ("address", 15%nat)]))]);
   ("SILVAIR_NDS", 0xFC3601, "SUBSCRIPTION_STATUS", 3,
      plain [("destination", FLeaf (number 2 (fun z => 0 <= z < 0x8000 \/ 0xC000 <= z < 0xFF00))%Z); ("period", FU 2); ("max_record_count", FU 1);
             ("record", FRest (plain [("source", unicast_or_none); ("count", FU 2); ("min_hops", FLeaf (number 1 (fun z => z <= 127)%Z));
                                      ("max_hops", FLeaf (number 1 (fun z => z <= 127)%Z))]))])].
