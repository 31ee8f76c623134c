(** Specification vocabulary for data from a device that may be anything at all. *)
From Coq Require Import String ZArith List Bool.
From Verif Require Import Base Instruct.
Import ListNotations.
Local Open Scope string_scope.
Local Open Scope Z_scope.

(** An object of the class, or an error of the parsing library; no other exception (an
    endless loop or a stray access to memory would be EFault). *)
Definition object_or_refusal (class : string) (r : result pyval) : Prop :=
  (exists l, r = Ok (PObj class l)) \/ r = Err EInstruct.

(** The class of the INQUIRY data with a page code. *)
Definition vpd_class (code : Z) : string :=
  match code with
  | 0 => "SupportedVPDPagesBuffer"
  | 128 => "UnitSerialNumberVPDPageBuffer"
  | 131 => "DeviceIdentificationVPDPageBuffer"
  | 137 => "AtaInformationVPDPageBuffer"
  | 176 => "BlockLimitsVPDPageBuffer"
  | 178 => "LogicalBlockProvisioningVPDPageBuffer"
  | 192 => "VeritasVPDPageBuffer"
  | _ => "UnknownVPDPageBuffer"
  end.

(** The class of the diagnostic page with a page code. *)
Definition ses_class (code : Z) : string :=
  match code with
  | 0 => "SupportedDiagnosticPagesData"
  | 1 => "ConfigurationDiagnosticPagesData"
  | 2 => "EnclosureStatusDiagnosticPagesData"
  | 7 => "ElementDescriptorDiagnosticPagesData"
  | 128 => "Vendor0x80DiagnosticPagesData"
  | _ => "UnknownDiagnosticPageData"
  end.

(** The class of the answer to PERSISTENT RESERVE IN. *)
Definition pr_in_class (service_action : Z) : string :=
  match service_action with
  | 0 => "PersistentReserveInReadKeysResponse"
  | 1 => "PersistentReserveInReadReservationResponse"
  | 2 => "PersistentReserveInReportCapabilitiesResponse"
  | _ => "PersistentReserveInReadFullStatusResponse"
  end.

(** A piece of library code that gives something or raises an error of the library. *)
Definition library_code {A} (r : result A) : Prop := (exists a, r = Ok a) \/ r = Err EInstruct.

(** What execute() does with the data [d] of the device, if its class parses it: no data
    at all (None) is a TypeError. *)
Definition parses_anything (class : string) (d : option bytes) (r : result pyval) : Prop :=
  match d with
  | None => r = Err EType
  | Some _ => object_or_refusal class r
  end.
