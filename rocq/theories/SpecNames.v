(** Names that the standard gives to designator types and device types, and lookups one after the other. *)
From Coq Require Import String ZArith List Bool.
From Verif Require Import Base SpecText Names.
Import ListNotations.
Local Open Scope string_scope.
Local Open Scope list_scope.
Local Open Scope Z_scope.

(** SPC-4 7.8.6.1, DESIGNATOR TYPE: 0 to Ah, the others are reserved. *)
Definition standard_designator (i : Z) : option string :=
  if i <? 0 then None
  else nth_error ["vendor specific [0x0]"; "T10 vendor identification"; "EUI-64 based"; "NAA"; "Relative target port"; "Target port group";
    "Logical unit group"; "MD5 logical unit identifier"; "SCSI name string"; "Protocol specific port identifier"; "UUID identifier"] (Z.to_nat i).

(** What a lookup should give: the name; for a reserved type a text with its number; an error if it is no number. *)
Definition named_right (k : key) (r : result string) : Prop :=
  match k with
  | KOther _ => r = Err EType
  | KInt i =>
    match standard_designator i with
    | Some n => r = Ok n
    | None => exists t, r = Ok t /\ (if 0 <=? i then hex_after "Reserved [" t = Some i else hex_after "Reserved [-" t = Some (- i))
    end
  end.

(** One lookup SCSI_DESIGNATOR_TYPES[k] after the other. *)
Fixpoint looked_up (d : names) (ks : list key) : names * list (result string) :=
  match ks with
  | [] => (d, [])
  | k :: ks => let (d1, r) := designator_name d k in let (d2, l) := looked_up d1 ks in (d2, r :: l)
  end.

(** SPC-4 table 141 and its successors: what PERIPHERAL DEVICE TYPE means, where it means something. *)
Definition standard_device_type (i : Z) : option string :=
  if i =? 30 then Some "well known logical unit"
  else if i =? 31 then Some "no physical device on this lu"
  else nth_error ["disk"; "tape"; "printer"; "processor"; "write once optical disk"; "cd/dvd"; "scanner"; "optical memory device"; "medium changer";
    "communications"; "graphics [0xa]"; "graphics [0xb]"; "storage array controller"; "enclosure services device"; "simplified direct access device";
    "optical card reader/writer device"; "bridge controller commands"; "object based storage"; "automation/driver interface";
    "security manager device"; "zoned block commands"] (Z.to_nat i).
(** SPC-5 table 149: VERSION, for numbers from 0 on. *)
Definition standard_version (v : Z) : option string :=
  nth_error ["no conformance claimed"; "SCSI-1"; "SCSI-2"; "SPC"; "SPC-2"; "SPC-3"; "SPC-4"; "SPC-5"] (Z.to_nat v).
