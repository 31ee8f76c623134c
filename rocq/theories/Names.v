(** The name tables of cdb/inquiry/vpd_pages/__init__.py. *)
From Coq Require Import String Ascii ZArith List Bool.
From Verif Require Import Base ErrorText.
Import ListNotations.
Local Open Scope string_scope.
Local Open Scope list_scope.
Local Open Scope Z_scope.

(** A key: an integer, or another object that can be hashed ([KOther]); numbers of other classes that equal an integer are left out. [cdb/inquiry/vpd_pages/__init__.py:13-17] *)
Inductive key : Type := KInt (i : Z) | KOther (name : string).
(** Equality of keys. [cdb/inquiry/vpd_pages/__init__.py:16] *)
Definition same_key (a b : key) : bool :=
  match a, b with
  | KInt i, KInt j => i =? j
  | KOther s, KOther t => String.eqb s t
  | _, _ => false
  end.

(** A dictionary, in the order of insertion. [cdb/inquiry/vpd_pages/__init__.py:11] *)
Definition names : Type := list (key * string).
(** d.get(key), which does not call __missing__; [key in d] is whether there is one. [dict, cdb/inquiry/vpd_pages/__init__.py:11] *)
Fixpoint get (d : names) (k : key) : option string :=
  match d with
  | [] => None
  | (k', v) :: r => if same_key k k' then Some v else get r k
  end.

(** hex(i), cdb/inquiry/vpd_pages/__init__.py:140. *)
Definition hex (i : Z) : string := if i <? 0 then ("-0x" ++ digits 16 (- i))%string else ("0x" ++ digits 16 i)%string.
(** lambda i: 'Reserved [%s]' % hex(i), cdb/inquiry/vpd_pages/__init__.py:140; hex raises TypeError for other objects. *)
Definition reserved (k : key) : result string :=
  match k with
  | KInt i => Ok ("Reserved [" ++ hex i ++ "]")%string
  | KOther _ => Err EType
  end.

(** CustomDefaultDict.__missing__ with a factory, cdb/inquiry/vpd_pages/__init__.py:13-17: the value is stored. *)
Definition missing (factory : option (key -> result string)) (d : names) (k : key) : names * result string :=
  match factory with
  | None => (d, Err EKey)
  | Some f =>
    match f k with
    | Ok v => (d ++ [(k, v)], Ok v)
    | Err e => (d, Err e)
    end
  end.
(** d[key], cdb/inquiry/vpd_pages/__init__.py:11-17. *)
Definition getitem (factory : option (key -> result string)) (d : names) (k : key) : names * result string :=
  match get d k with
  | Some v => (d, Ok v)
  | None => missing factory d k
  end.

(** _SCSI_DESIGNATOR_TYPES and SCSI_DESIGNATOR_TYPES, cdb/inquiry/vpd_pages/__init__.py:127-140. *)
Definition designator_types : names :=
  [(KInt 0, "vendor specific [0x0]"); (KInt 1, "T10 vendor identification"); (KInt 2, "EUI-64 based"); (KInt 3, "NAA");
   (KInt 4, "Relative target port"); (KInt 5, "Target port group"); (KInt 6, "Logical unit group");
   (KInt 7, "MD5 logical unit identifier"); (KInt 8, "SCSI name string"); (KInt 9, "Protocol specific port identifier");
   (KInt 10, "UUID identifier")].
(** As above: cdb/inquiry/vpd_pages/__init__.py:140. *)
Definition designator_name (d : names) (k : key) : names * result string := getitem (Some reserved) d k.

(** SCSI_PERIPHERAL_DEVICE_TYPE, cdb/inquiry/vpd_pages/__init__.py:37-68. *)
Definition device_types : names :=
  [(KInt 0, "disk"); (KInt 1, "tape"); (KInt 2, "printer"); (KInt 3, "processor"); (KInt 4, "write once optical disk"); (KInt 5, "cd/dvd");
   (KInt 6, "scanner"); (KInt 7, "optical memory device"); (KInt 8, "medium changer"); (KInt 9, "communications"); (KInt 10, "graphics [0xa]");
   (KInt 11, "graphics [0xb]"); (KInt 12, "storage array controller"); (KInt 13, "enclosure services device");
   (KInt 14, "simplified direct access device"); (KInt 15, "optical card reader/writer device"); (KInt 16, "bridge controller commands");
   (KInt 17, "object based storage"); (KInt 18, "automation/driver interface"); (KInt 19, "security manager device");
   (KInt 20, "zoned block commands"); (KInt 21, "0x15"); (KInt 22, "0x16"); (KInt 23, "0x17"); (KInt 24, "0x18"); (KInt 25, "0x19");
   (KInt 26, "0x1a"); (KInt 27, "0x1b"); (KInt 28, "0x1c"); (KInt 29, "0x1d"); (KInt 30, "well known logical unit");
   (KInt 31, "no physical device on this lu")].
(** SCSI_VERSION_NAME, cdb/inquiry/vpd_pages/__init__.py:71-79. *)
Definition versions : names :=
  [(KInt 0, "no conformance claimed"); (KInt 1, "SCSI-1"); (KInt 2, "SCSI-2"); (KInt 3, "SPC"); (KInt 4, "SPC-2"); (KInt 5, "SPC-3");
   (KInt 6, "SPC-4"); (KInt 7, "SPC-5")].
(** d[key] of a plain dict such as these, cdb/inquiry/vpd_pages/__init__.py:37, 71. *)
Definition plain_getitem (d : names) (k : key) : result string := match get d k with Some v => Ok v | None => Err EKey end.
