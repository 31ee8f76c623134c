(** Properties C49 (SES status elements), C50 (SES), C55, C56, C61 (SES pages) and C74. *)
From Coq Require Import String ZArith List Bool Lia.
From Verif Require Import Base OsCommon Instruct Command CdbPrimary SpecDevice Pages SpecLayout SpecPack Ses SpecSes SesFacts.
Import ListNotations.
Local Open Scope string_scope.
Local Open Scope Z_scope.

(** ** C49: status elements *)

(** Each number of a status element comes from the place the standard gives, except for the
    deviations listed in SpecSes.v. *)
Theorem C49_ses_elements : forall type e rest, text_of_length 4 e -> bytes_ok rest ->
  elem_obj (element_class type) 4 (e ++ rest)%list = Ok (element_object type e, 4%nat).
Proof. exact element_spec. Qed.
(** The deviations matter: by the standard the values would be others. *)
Theorem C49_ses_elements_refuted : forall type k, kind_of type element_kinds = Some k -> k_deviations k <> [] ->
  exists e, text_of_length 4 e /\
    elem_obj (element_class type) 4 e <>
    Ok (PObj (k_class k) (layout_values common_layout e ++ [("status_info", PObj (k_info k) (layout_values (k_layout k) e))])%list, 4%nat).
Proof.
  intros type k K D. exists [0; 128; 128; 131].
  assert (T : text_of_length 4 [0; 128; 128; 131]) by (split; [repeat constructor; unfold byte_ok; lia|reflexivity]).
  split; [exact T|]. pose proof (element_spec type [0; 128; 128; 131] [] T (Forall_nil _)) as E. rewrite app_nil_r in E. rewrite E.
  unfold element_object. rewrite K. revert K D. unfold element_kinds. cbn [kind_of].
  repeat (match goal with |- (if ?t =? ?c then _ else _) = _ -> _ => destruct (t =? c);
            [intros F; injection F as <-; cbn [k_deviations k_layout k_class k_info]; intros N;
             first [exfalso; apply N; reflexivity|vm_compute; discriminate]|] end).
  discriminate.
Qed.

Example C49_ses_elements_example :
  elem_obj (element_class 4) 4 [1; 0; 52; 8; 99] =
  Ok (PObj "TempSensorStatusElement"
        [("element_status_code", PInt 1); ("swap", PInt 0); ("disabled", PInt 0); ("prdfail", PInt 0);
         ("status_info", PObj "TempSensorElementInfo"
            [("fail", PInt 0); ("ident", PInt 0); ("temperature", PInt 52); ("ut_warn", PInt 0); ("ut_fail", PInt 0);
             ("ot_warn", PInt 0); ("ot_fail", PInt 1)])], 4%nat).
Proof. vm_compute. reflexivity. Qed.
(** The temperature 180 (160 degrees) is read as -76; the fan speed 905 (9050 rpm) as 1099. *)
Example C49_ses_elements_refuted_example :
  (exists v, elem_obj (element_class 4) 4 [1; 0; 180; 0] = Ok (v, 4%nat) /\
     exists i, obj_attr "status_info" v = Ok i /\ obj_int "temperature" i = Ok (-76)) /\
  (exists v, elem_obj (element_class 3) 4 [1; 3; 137; 37] = Ok (v, 4%nat) /\
     exists i, obj_attr "status_info" v = Ok i /\ obj_int "fan_speed" i = Ok 1099 /\ 3 * 256 + 137 = 905).
Proof. split; eexists; (split; [vm_compute; reflexivity|]); eexists; repeat split. Qed.

(** ** C50: the fields of one class overlap *)

Theorem C50_enclosure_element_refuted : exists a b,
  Forall (set_and_fits a) enclosure_fields /\ pack_fields 3 enclosure_fields a = Ok b /\
  unpack (buffer_class "EnclosureElementInfo" enclosure_fields) b <> Ok (PObj "EnclosureElementInfo" (given enclosure_fields a)).
Proof.
  exists [("ident", 0); ("warn_indication", 1); ("failure_indication", 0); ("time_until_power_cycle", 5); ("warn_requested", 0);
          ("failure_requested", 0); ("requested_power_off_duration", 0)], [0; 0; 0].
  split; [|split; [vm_compute; reflexivity|vm_compute; discriminate]].
  repeat (constructor; [eexists; split; [reflexivity|]; unfold fits; vm_compute; split; congruence|]). constructor.
Qed.

(** ** C55: configuration page *)

(** Every configuration page in which no count and no length is above 127. *)
Theorem C55_configuration : forall negative gen l rest, Forall enclosure_ok l -> l <> [] -> (length l <= 128)%nat ->
  Forall (fun e => zlen (e_types e) < 128) l -> Forall (fun t => zlen (t_text t) < 128) (all_types l) ->
  0 <= gen < 2 ^ 32 -> 4 + zlen (configuration_body l) < 65536 -> bytes_ok rest ->
  configuration negative (configuration_page gen l ++ rest)%list = Ok (whole_configuration gen l).
Proof. exact configuration_spec. Qed.
(** In general the counts above 127 are taken as negative: the headers beyond the sum are
    lost. *)
Theorem C55_lost_headers : forall negative gen l rest v, Forall enclosure_ok l -> l <> [] -> (length l <= 128)%nat ->
  0 <= gen < 2 ^ 32 -> 4 + zlen (configuration_body l) < 65536 -> bytes_ok rest ->
  configuration negative (configuration_page gen l ++ rest)%list = Ok v ->
  exists texts, v = configuration_object gen (zlen (configuration_body l)) (zlen l - 1) (map enclosure_object l)
    (map header_object (firstn (Z.to_nat (counted l)) (all_types l))) texts.
Proof. exact configuration_lost. Qed.
(** With more than 127 secondary subenclosures nothing is left. *)
Theorem C55_lost_enclosures : forall negative gen l rest, Forall enclosure_ok l -> (128 < length l <= 256)%nat ->
  0 <= gen < 2 ^ 32 -> 4 + zlen (configuration_body l) < 65536 -> bytes_ok rest ->
  configuration negative (configuration_page gen l ++ rest)%list =
  Ok (configuration_object gen (zlen (configuration_body l)) (zlen l - 1) [] [] []).
Proof. exact configuration_many. Qed.

(** An enclosure with a fan and a slot, and a subenclosure. *)
Definition example_enclosures : list enclosure :=
  [Enclosure 1 2 0 (repeat 80 8) [78; 69; 87; 32; 32; 32; 32; 32] (repeat 65 16) [48; 53; 48; 57] [5]
     [Type_ 3 2 0 [70; 97; 110]; Type_ 23 1 0 []];
   Enclosure 1 2 7 (repeat 81 8) (repeat 66 8) (repeat 67 16) (repeat 68 4) [] [Type_ 4 0 7 [84]]].
(** A type as in the examples, 200 times. *)
Definition example_many : list enclosure :=
  [Enclosure 1 1 0 (repeat 0 8) (repeat 65 8) (repeat 65 16) (repeat 65 4) [] (repeat (Type_ 23 1 0 [65]) 200)].
Example C55_configuration_example :
  Forall enclosure_ok example_enclosures /\ zlen (configuration_body example_enclosures) = 97 /\
  configuration (fun _ _ => Err EInstruct) (configuration_page 3 example_enclosures ++ [0; 0; 0])%list =
  Ok (whole_configuration 3 example_enclosures).
Proof.
  split; [|split; vm_compute; reflexivity]. unfold example_enclosures.
  repeat constructor; cbn; try lia; unfold byte_ok, is_byte, zlen; cbn; lia.
Qed.
Example C55_lost_headers_example :
  counted example_many = -56 /\ length (all_types example_many) = 200%nat /\
  configuration (fun _ _ => Err EInstruct) (configuration_page 3 example_many) =
  Ok (configuration_object 3 1040 0 (map enclosure_object example_many) [] []).
Proof. split; [reflexivity|]. split; vm_compute; reflexivity. Qed.
Theorem C55_expected_refuted : exists gen l, Forall enclosure_ok l /\ l <> [] /\ (length l <= 128)%nat /\ 0 <= gen < 2 ^ 32 /\
  4 + zlen (configuration_body l) < 65536 /\
  forall negative texts, configuration negative (configuration_page gen l) <>
    Ok (configuration_object gen (zlen (configuration_body l)) (zlen l - 1) (map enclosure_object l) (map header_object (all_types l)) texts).
Proof.
  exists 3, example_many. split; [|split; [discriminate|split; [cbn; lia|split; [lia|split; [vm_compute; reflexivity|]]]]].
  - unfold example_many. constructor; [|constructor].
    assert (T : type_ok (Type_ 23 1 0 [65])).
    { unfold type_ok, is_byte. cbn. repeat split; try lia. repeat constructor; unfold byte_ok; lia. }
    repeat split; try (cbn; lia); try (repeat constructor; unfold byte_ok; lia).
    change (Forall type_ok (repeat (Type_ 23 1 0 [65]) 200)). apply Forall_forall. intros t I. apply repeat_spec in I. subst t. exact T.
  - intros negative texts H. vm_compute in H. discriminate H.
Qed.
(** The subenclosures of the second example: 129 of them. *)
Example C55_lost_enclosures_example :
  let l := repeat (Enclosure 1 1 0 (repeat 0 8) (repeat 65 8) (repeat 65 16) (repeat 65 4) [] []) 129 in
  zlen (configuration_body l) = 5160 /\
  configuration (fun _ _ => Err EInstruct) (configuration_page 3 l) = Ok (configuration_object 3 5160 128 [] [] []).
Proof. split; vm_compute; reflexivity. Qed.

(** ** C56: status and element descriptor pages *)

(** [gs] are the elements of the page, type by type as the configuration [l] says. *)
Theorem C56_status : forall cgen l flags gen gs rest, map g_type gs = all_types l ->
  Forall (fun g => group_complete g /\ t_elements (g_type g) < 128 /\ Forall (text_of_length 4) (g_overall g :: g_elements g)) gs ->
  is_byte flags -> 0 <= gen < 2 ^ 32 -> 4 + zlen (status_body gs) < 65536 -> bytes_ok rest ->
  enclosure_status (whole_configuration cgen l) (status_page flags gen gs ++ rest)%list =
  Ok (status_page_object flags gen (zlen (status_body gs)) (map status_group_object gs)).
Proof. exact status_page_spec. Qed.
Theorem C56_descriptors : forall cgen l gen gs rest, map g_type gs = all_types l ->
  Forall (fun g => group_complete g /\ t_elements (g_type g) < 128 /\
                   Forall (fun t => bytes_ok t /\ zlen t < 32768) (g_overall g :: g_elements g)) gs ->
  0 <= gen < 2 ^ 32 -> 4 + zlen (descriptor_body gs) < 65536 -> bytes_ok rest ->
  element_descriptors (whole_configuration cgen l) (descriptor_page gen gs ++ rest)%list =
  Ok (descriptor_page_object gen (zlen (descriptor_body gs)) (map descriptor_group_object gs)).
Proof. exact descriptor_page_spec. Qed.
(** Of a type with more than 127 elements no individual element is read, and the next type
    is looked for four bytes further on. *)
Theorem C56_lost_elements : forall g rest, Forall (text_of_length 4) (g_overall g :: g_elements g) ->
  128 <= t_elements (g_type g) < 256 -> bytes_ok rest ->
  status_descriptor (header_object (g_type g)) (group_data (fun e => e) g ++ rest)%list =
  Ok (status_group_object (Group (g_type g) (g_overall g) []), 4%nat).
Proof. exact status_descriptor_many. Qed.

(** The same on the element descriptor page: only the overall text is read. *)
Theorem C56_lost_descriptors : forall g rest, Forall (fun t => bytes_ok t /\ zlen t < 32768) (g_overall g :: g_elements g) ->
  128 <= t_elements (g_type g) < 256 -> bytes_ok rest ->
  element_descriptor (header_object (g_type g)) (group_data element_text g ++ rest)%list =
  Ok (descriptor_group_object (Group (g_type g) (g_overall g) []), length (element_text (g_overall g))).
Proof. exact element_descriptor_many. Qed.

Definition example_elements : list (group bytes) :=
  [Group (Type_ 3 2 0 [70; 97; 110]) [0; 0; 0; 0] [[1; 3; 137; 37]; [5; 0; 0; 0]];
   Group (Type_ 23 1 0 []) [2; 0; 0; 0] [[1; 128; 0; 16]];
   Group (Type_ 4 0 7 [84]) [6; 0; 0; 0] []].
Definition example_texts : list (group bytes) :=
  [Group (Type_ 3 2 0 [70; 97; 110]) [70] [[65; 66]; []]; Group (Type_ 23 1 0 []) [] [[67]]; Group (Type_ 4 0 7 [84]) [68] []].
Example C56_status_example :
  map g_type example_elements = all_types example_enclosures /\ Forall group_complete example_elements /\
  status_page 9 3 example_elements =
    [2; 9; 0; 28; 0; 0; 0; 3; 0; 0; 0; 0; 1; 3; 137; 37; 5; 0; 0; 0; 2; 0; 0; 0; 1; 128; 0; 16; 6; 0; 0; 0] /\
  enclosure_status (whole_configuration 3 example_enclosures) (status_page 9 3 example_elements ++ [77])%list =
  Ok (status_page_object 9 3 24 (map status_group_object example_elements)).
Proof. split; [reflexivity|]. split; [repeat constructor|]. split; vm_compute; reflexivity. Qed.
Example C56_descriptors_example :
  map g_type example_texts = all_types example_enclosures /\ Forall group_complete example_texts /\
  element_descriptors (whole_configuration 3 example_enclosures) (descriptor_page 3 example_texts ++ [77])%list =
  Ok (descriptor_page_object 3 29 (map descriptor_group_object example_texts)).
Proof. split; [reflexivity|]. split; [repeat constructor|vm_compute; reflexivity]. Qed.
Example C56_lost_descriptors_example :
  let g := Group (Type_ 23 200 0 []) [65; 66] (repeat [67] 200) in
  group_complete g /\
  element_descriptor (header_object (g_type g)) (group_data element_text g) =
  Ok (descriptor_group_object (Group (Type_ 23 200 0 []) [65; 66] []), 6%nat).
Proof. split; vm_compute; reflexivity. Qed.
Example C56_lost_elements_example :
  let g := Group (Type_ 23 200 0 []) [2; 0; 0; 0] (repeat [1; 0; 0; 0] 200) in
  group_complete g /\
  status_descriptor (header_object (g_type g)) (group_data (fun e => e) g) =
  Ok (PObj "StatusDescriptor"
        [("type_descriptor_header",
            PObj "TypeDescriptorHeader" [("element_type", PInt 23); ("possible_elements_num", PInt (-56));
                                         ("subenclosure_identifier", PInt 0); ("type_descriptor_text_length", PInt 0)]);
         ("overall_element", general_object [2; 0; 0; 0]); ("individual_elements", PList [])], 4%nat).
Proof. split; vm_compute; reflexivity. Qed.

(** ** C61: dispatch of the SES pages *)

(** The class for a page code, called with the right number of arguments (one for the pages that
    need the configuration page), asks for this page; the answer goes to the class for the
    page code. *)
Theorem C61_ses_page : forall lib code args,
  if (length args =? ses_arguments code)%nat
  then asks (do o <- get_ses_page lib code args; request o) (0 <= code < 2 ^ 8) (ses_allocation code)
         (OpReceiveDiagnostic 1 code (ses_allocation code)) /\
       forall o d, get_ses_page lib code args = Ok o ->
         o_finish o (o_attrs o) (Some d) = get_ses_page_data lib code (hd PNone args) d
  else get_ses_page lib code args = Err EType.
Proof. exact ses_dispatch. Qed.
(** Supported pages and vendor page: all the bytes from byte 4, whatever the page length says. *)
Theorem C61_ses_small_pages : forall lib conf buf, bytes_ok buf ->
  (get_ses_page_data lib 0 conf buf =
   if (4 <=? length buf)%nat
   then Ok (PObj "SupportedDiagnosticPagesData"
              [("page_code", PInt (sb 0 1 buf)); ("page_length", PInt (sb 2 4 buf)); ("supported_pages", PList (map PInt (skipn 4 buf)))])
   else Err EInstruct) /\
  (get_ses_page_data lib 128 conf buf =
   if (4 <=? length buf)%nat
   then Ok (PObj "Vendor0x80DiagnosticPagesData"
              [("page_code", PInt (sb 0 1 buf)); ("page_length", PInt (sb 2 4 buf)); ("vendor_specific", PList (map PInt (skipn 4 buf)))])
   else Err EInstruct).
Proof. intros lib conf buf O. split; apply small_page_spec; exact O. Qed.
(** Any other page: the data are one number. *)
Theorem C61_ses_unknown : forall lib code conf buf, ~ In code [0; 1; 2; 7; 128] -> bytes_ok buf -> (2 <= length buf)%nat ->
  get_ses_page_data lib code conf buf =
  do _ <- plain_keyword lib;
  Ok (PObj "UnknownDiagnosticPageData" [("page_code", PInt (sb 0 1 buf)); ("page_data", PInt (sb 1 (length buf) buf))]).
Proof. exact ses_data_unknown. Qed.

Definition example_library : library := Library (fun _ _ => Err EInstruct) (Ok tt).
Example C61_ses_page_example :
  (do o <- get_ses_page example_library 2 [whole_configuration 3 example_enclosures]; request o) =
    Ok (ReadCmd [28; 1; 2; 255; 255; 0] 65535) /\
  (do o <- get_ses_page example_library 10 []; request o) = Ok (ReadCmd [28; 1; 10; 8; 0; 0] 2048) /\
  get_ses_page example_library 2 [] = Err EType.
Proof. repeat split; vm_compute; reflexivity. Qed.
Example C61_ses_small_pages_example :
  get_ses_page_data example_library 0 PNone [0; 0; 0; 2; 0; 1; 128] =
  Ok (PObj "SupportedDiagnosticPagesData"
        [("page_code", PInt 0); ("page_length", PInt 2); ("supported_pages", PList [PInt 0; PInt 1; PInt 128])]).
Proof. reflexivity. Qed.
Example C61_ses_unknown_example :
  get_ses_page_data example_library 4 PNone [4; 0; 0; 2; 1; 2] =
  Ok (PObj "UnknownDiagnosticPageData" [("page_code", PInt 4); ("page_data", PInt 131330)]).
Proof. vm_compute. reflexivity. Qed.

(** ** C74: joined bit ranges *)

(** The company id of an NAA 5 designator (designators.py:65) and the fan speed
    (enclosure_status.py:92) join bit ranges in opposite orders.  [first_low] says which end of
    such a field the first range is. *)
Definition joined (first_low : bool) (parts : list (list bitpos)) : list bitpos :=
  concat (if first_low then parts else rev parts).
Theorem C74_joined_ranges : forall first_low,
  (exists buf, bytes_ok buf /\ length buf = 12%nat /\
     read_int false (joined first_low [bits_of 7 4 8; byte_of 6; byte_of 5; bits_of 4 0 4]) buf <>
       Ok (loc_value (Mid 4 8 4 24) buf)) \/
  (exists e, text_of_length 4 e /\
     read_int true (joined first_low [bits_of 0 0 3; byte_of 1]) (slice 1 4 e) <> Ok (loc_value (Mid 1 3 0 11) e)).
Proof.
  intros [|].
  - right. exists [1; 3; 137; 37]. split; [split; [repeat constructor; unfold byte_ok; lia|reflexivity]|vm_compute; discriminate].
  - left. exists [1; 3; 0; 8; 80; 1; 219; 208; 0; 0; 18; 52].
    split; [repeat constructor; unfold byte_ok; lia|]. split; [reflexivity|vm_compute; discriminate].
Qed.
(** The orders of the model. *)
Example C74_joined_ranges_example :
  joined true [bits_of 7 4 8; byte_of 6; byte_of 5; bits_of 4 0 4] = f_bits (nth 1 naa5_fields naa_field) /\
  joined true [bits_of 0 0 3; byte_of 1] = f_bits (nth 0 cooling_fields naa_field).
Proof. split; reflexivity. Qed.

Print Assumptions C49_ses_elements.
Print Assumptions C49_ses_elements_refuted.
Print Assumptions C50_enclosure_element_refuted.
Print Assumptions C55_configuration.
Print Assumptions C55_lost_headers.
Print Assumptions C55_lost_enclosures.
Print Assumptions C55_expected_refuted.
Print Assumptions C56_status.
Print Assumptions C56_descriptors.
Print Assumptions C56_lost_elements.
Print Assumptions C56_lost_descriptors.
Print Assumptions C61_ses_page.
Print Assumptions C61_ses_small_pages.
Print Assumptions C61_ses_unknown.
Print Assumptions C74_joined_ranges.
