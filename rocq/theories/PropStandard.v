(** Property C93: standard INQUIRY data that a program builds or passes on. *)
From Coq Require Import String ZArith List Bool Lia.
From Verif Require Import Base Instruct Command SpecDevice SpecLayout SpecPages SpecVpd Pages SpecStandard StandardFacts.
Import ListNotations.
Local Open Scope string_scope.
Local Open Scope list_scope.
Local Open Scope Z_scope.

(** Packing gives the bytes of the standard exactly for the contents that fit; others are refused. *)
Theorem C93_pack : forall c, in_place c ->
  (content_fits c ->
     pack_standard_inquiry (i_type c) (i_qualifier c) (i_numbers c) (i_vendor c) (i_product c) (i_revision c) (i_extended c)
     = Ok (standard_bytes c)) /\
  (~ content_fits c ->
     pack_standard_inquiry (i_type c) (i_qualifier c) (i_numbers c) (i_vendor c) (i_product c) (i_revision c) (i_extended c)
     = Err EInstruct).
Proof. exact pack_content_spec. Qed.
(** Reading the bytes gives the content back, missing parts of the extension filled up. *)
Theorem C93_read_back : forall c, in_place c -> content_fits c -> content_ok c -> no_padding c ->
  unpack standard_inquiry_data (standard_bytes c) = Ok (content_read c).
Proof. exact content_read_back. Qed.
(** Data of a device that uses no reserved bits can be read and packed again unchanged. *)
Theorem C93_passed_on : forall buf, plain buf ->
  unpack standard_inquiry_data buf = Ok (content_read (content_of buf)) /\
  let c := content_of buf in
  pack_standard_inquiry (i_type c) (i_qualifier c) (i_numbers c) (i_vendor c) (i_product c) (i_revision c) (i_extended c) = Ok buf.
Proof. intros buf P. split; [exact (plain_read buf P)|exact (plain_again buf P)]. Qed.

(** An array with an extension: 8 descriptors are read although 2 were given, because bytes follow. *)
Definition array_numbers : attributes :=
  map (fun e => (fst e, if String.eqb (fst e) "version" then 6 else if String.eqb (fst e) "tpgs" then 3 else 0)) standard_inquiry_layout.
Definition array_content (e : option extended) : inquiry_content := Content 0 0 array_numbers [73; 66] [77; 32; 49] [49] e.
Definition array_extension : extended := Extended [1; 2; 3] 1 0 2 [2656; 3168] (Some [9; 8]).
Lemma array_numbers_fit : numbers_fit array_numbers.
Proof.
  intros n l I N. cbn [In standard_inquiry_layout] in I.
  repeat (destruct I as [E|I]; [injection E as <- <-; eexists; split; [reflexivity|unfold below; cbn; lia]|]). contradiction.
Qed.
Example C93_example :
  let c := array_content (Some array_extension) in
  in_place c /\ content_fits c /\ content_ok c /\ no_padding c /\
  standard_bytes c = [0; 0; 6; 0; 93; 48; 0; 0] ++ [73; 66] ++ repeat 32 6 ++ [77; 32; 49] ++ repeat 32 13 ++ [49; 32; 32; 32] ++
    [1; 2; 3] ++ repeat 0 17 ++ [9; 0; 10; 96; 12; 96] ++ repeat 0 34 ++ [9; 8] /\
  exists l, content_read c = PObj "StandardInquiryDataBuffer" l /\ lookup "additional_length" l = Some (PInt 93) /\
    lookup "t10_vendor_identification" l = Some (PBytes [73; 66]) /\ exists x, lookup "extended" l = Some (PObj "StandardInquiryExtendedDataBuffer" x) /\
    lookup "version_descriptors" x = Some (PList (map PInt [2656; 3168; 0; 0; 0; 0; 0; 0])).
Proof.
  cbv zeta.
  assert (NP : forall s b r, s = r ++ [b] -> is_pad b = false -> ~ ends_in_padding s).
  { intros s b r -> P (q & d & E & D). apply app_inj_tail in E. destruct E as (_ & <-). destruct D as [-> | ->]; discriminate P. }
  split; [cbn; lia|]. split.
  { unfold content_fits. split; [unfold below; cbn; lia|]. split; [unfold below; cbn; lia|]. split; [exact array_numbers_fit|].
    split; [cbn; lia|]. split; [|unfold zlen; cbn; lia]. unfold extension_fits, below. cbn. repeat (split; [lia|]). repeat constructor; lia. }
  split. { unfold content_ok. cbn. unfold bytes_ok. repeat split; repeat constructor; unfold byte_ok; lia. }
  split. { split; [apply (NP _ 66 [73]); reflexivity|]. split; [apply (NP _ 49 [77; 32]); reflexivity|apply (NP _ 49 []); reflexivity]. }
  split; [reflexivity|]. eexists. split; [reflexivity|]. split; [reflexivity|]. split; [reflexivity|]. eexists. split; reflexivity.
Qed.
Example C93_refused_example :
  in_place (array_content (Some (Extended [] 0 0 4 [] None))) /\ ~ content_fits (array_content (Some (Extended [] 0 0 4 [] None))).
Proof. split; [cbn; lia|]. intros (_ & _ & _ & _ & (_ & _ & C & _) & _). unfold below in C. cbn in C. lia. Qed.
Example C93_passed_on_example : plain ([0; 128; 6; 50; 59; 48; 16; 2] ++ [73; 66] ++ repeat 32 6 ++ repeat 65 16 ++ [49; 32; 32; 32] ++
    repeat 7 20 ++ [13; 0; 10; 96; 12; 96; 0; 1]).
Proof.
  unfold plain. split. { unfold bytes_ok. repeat constructor; unfold byte_ok; lia. }
  split; [reflexivity|]. split. { intros k lo w I. cbn [In unused_bits] in I. repeat (destruct I as [E|I]; [injection E as <- <- <-; reflexivity|]). contradiction. }
  split; [reflexivity|]. split; [reflexivity|]. split; [reflexivity|]. right. split; [cbn; lia|]. split; [reflexivity|]. split; [reflexivity|].
  left. split; [cbn; lia|reflexivity].
Qed.

(** What the theorems exclude is accepted and comes back as something else: vendor specific bytes
    beyond the twentieth are read as version descriptors, and a ninth descriptor is lost. *)
Example C93_spilled_refuted : exists b l x,
  pack_standard_inquiry 0 0 array_numbers [] [] [] (Some (Extended (repeat 7 26) 0 0 0 [] None)) = Ok b /\
  unpack standard_inquiry_data b = Ok (PObj "StandardInquiryDataBuffer" l) /\
  lookup "extended" l = Some (PObj "StandardInquiryExtendedDataBuffer" x) /\
  lookup "vendor_specific_1" x = Some (PBytes (repeat 7 20)) /\
  lookup "version_descriptors" x = Some (PList [PInt 1799; PInt 1799]).
Proof. do 3 eexists. split; [vm_compute; reflexivity|]. split; [vm_compute; reflexivity|]. repeat split. Qed.
Example C93_ninth_descriptor_refuted : exists b l x,
  pack_standard_inquiry 0 0 array_numbers [] [] [] (Some (Extended (repeat 7 20) 0 0 0 [1; 2; 3; 4; 5; 6; 7; 8; 9] None)) = Ok b /\
  unpack standard_inquiry_data b = Ok (PObj "StandardInquiryDataBuffer" l) /\
  lookup "extended" l = Some (PObj "StandardInquiryExtendedDataBuffer" x) /\
  lookup "version_descriptors" x = Some (PList (map PInt [1; 2; 3; 4; 5; 6; 7; 8])).
Proof. do 3 eexists. split; [vm_compute; reflexivity|]. split; [vm_compute; reflexivity|]. repeat split. Qed.

Print Assumptions C93_pack.
Print Assumptions C93_read_back.
Print Assumptions C93_passed_on.
