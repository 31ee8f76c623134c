(** Facts about programs that read the pages of a device (C95). *)
From Coq Require Import String ZArith List Bool Lia.
From Verif Require Import Base BaseFacts Gen SpecGen Executer OsCommon Instruct Command CdbPrimary SpecDevice SpecCdb SpecSg SpecDrivers SpecExecute SpecPortable
  SpecReserve SpecAdaptive AdaptiveFacts ReserveFacts CdbResponseFacts CdbAllFacts CdbPropFacts CdbPrimaryFacts SpecLayout SpecPages SpecVpd Pages SpecSes Ses SesFacts SpecDiscover.
From Verif Require Import ResponseLemmas LayoutFacts PageFacts VpdFacts DesignatorFacts InquiryFacts SpecAta AtaFacts.
Import ListNotations.
Local Open Scope string_scope.
Local Open Scope list_scope.
Local Open Scope Z_scope.

(** * Reading one page *)

Definition filled (padded : bool) (alloc : Z) (data : bytes) : bytes :=
  data ++ zeros (if padded then Z.to_nat alloc - length data else 0).

Lemma got_page : forall padded cdb alloc data, 0 < zlen data <= alloc ->
  nice_expected padded (ReadCmd cdb alloc) (good (firstn (Z.to_nat alloc) data)) = RespData (Some (filled padded alloc data)).
Proof.
  intros padded cdb alloc data L. destruct (got_data padded cdb alloc data) as (m & -> & Hm); [lia|lia|]. do 2 f_equal. unfold filled.
  rewrite firstn_all2; [rewrite Hm; destruct padded; reflexivity|]. rewrite app_length. unfold zlen in L.
  assert (length (zeros m) = m) by apply repeat_length. destruct padded; lia.
Qed.
Lemma inquiry_seen : forall padded evpd code alloc parse cdb data, 0 < zlen data <= alloc ->
  seen padded (Inquiry evpd code alloc parse) (ReadCmd cdb alloc) (good (firstn (Z.to_nat alloc) data)) = parse (filled padded alloc data).
Proof. intros. rewrite seen_nice, got_page by assumption. reflexivity. Qed.
Lemma diagnostic_seen : forall padded code alloc parse cdb data, 0 < zlen data <= alloc ->
  seen padded (ReceiveDiagnostic code alloc parse) (ReadCmd cdb alloc) (good (firstn (Z.to_nat alloc) data)) = parse (filled padded alloc data).
Proof. intros. rewrite seen_nice, got_page by assumption. reflexivity. Qed.

Lemma vpd_allocation : forall code, 252 <= fst (vpd_page code) <= 2048.
Proof.
  intro code. unfold vpd_page, known_vpd_pages. cbn [known_page].
  repeat (match goal with |- context [code =? ?c] => destruct (code =? c); [cbn; lia|] end). cbn. lia.
Qed.
Lemma vpd_same : forall code, constructed (vpd_command code) = get_vpd_page code.
Proof.
  intro code. cbn [constructed vpd_command]. unfold vpd_page, known_vpd_pages. cbn [known_page]. 
  repeat (match goal with |- context [code =? ?c] => destruct (Z.eqb_spec code c) as [->|]; [reflexivity|] end). cbn [fst].
  unfold get_vpd_page, get_vpd_page_data. destruct code as [|p|p]; [contradiction| |reflexivity].
  do 8 (destruct p as [p|p|]; try reflexivity; try lia).
Qed.
Lemma vpd_issued : forall code, below 8 code ->
  exists cdb, issued (vpd_command code) = Ok (ReadCmd cdb (fst (vpd_page code))) /\ interpret cdb = Some (OpInquiry 1 code (fst (vpd_page code))).
Proof.
  intros code B. pose proof (vpd_allocation code) as A. unfold vpd_command.
  pose proof (inquiry_spec 1 code (fst (vpd_page code)) (unpack (get_vpd_page_data code))) as S. unfold issued. cbn [constructed].
  destruct (do o <- inquiry 1 code _ _; request o) as [k|e] eqn:J.
  - destruct (asks_ok _ _ _ _ _ S eq_refl) as (_ & cdb & -> & X). eauto.
  - exfalso. apply S. unfold below in B. lia.
Qed.

Section Visit.
Context {T : Type} (tgt : target T) (padded : bool) (codes : list Z) (page : Z -> bytes) (res : Z -> result pyval).
Context (Dev : reports_pages tgt codes page).
Context (Len : forall code, In code codes -> 0 < zlen (page code) <= fst (vpd_page code)).
Context (Res : forall code, In code codes -> reads_as code (page code) (res code)).

Lemma page_read : forall code next t, In code codes ->
  exists t1, forall t' r, does tgt padded t1 (next (res code)) t' r -> does tgt padded t (Do (vpd_command code) next) t' r.
Proof.
  intros code next t I. destruct Dev as [B Ans]. rewrite Forall_forall in B.
  destruct (vpd_issued code (B code I)) as (cdb & J & X). destruct (Ans t cdb [] code _ I X) as (t1 & E).
  pose proof (vpd_allocation code) as A. exists t1. intros t' r D.
  eapply does_seen; [exact Logic.I|exact J|cbn [moderate]; lia|exact E|apply ordinary_good| |exact D].
  unfold vpd_command. rewrite inquiry_seen by (apply Len; exact I). apply (Res code I).
Qed.

Lemma visits : forall l found t, (forall c, In c l -> In c codes) ->
  exists t', does tgt padded t (visit (map PInt l) found) t'
    (match collected l res with Ok r => Ok (PList (found ++ r)) | Err e => Err e end).
Proof.
  induction l as [|c l IH]; intros found t S; cbn [map visit collected].
  - exists t. rewrite app_nil_r. constructor.
  - destruct (page_read c (fun r => match r with Ok pg => visit (map PInt l) (found ++ [PList [PInt c; pg]]) | Err e => Fail e end) t (S c (or_introl eq_refl)))
      as (t1 & D).
    destruct (res c) as [v|e] eqn:R.
    + destruct (IH (found ++ [PList [PInt c; v]]) t1) as (t' & V); [intros; apply S; right; assumption|]. exists t'. apply D.
      cbv beta iota. destruct (collected l res) as [r|e]; [rewrite <- app_assoc in V|]; exact V.
    + exists t1. apply D. constructor.
Qed.
End Visit.

(** * What pages read as *)

Lemma first_byte : forall type qualifier rest, below 5 type -> below 3 qualifier ->
  peripheral_value ((type + 32 * qualifier) :: rest) = device_value type qualifier.
Proof.
  intros type qualifier rest T Q. unfold peripheral_value, device_value, below in *. do 2 f_equal.
  unfold layout_values, peripheral_layout. cbn [map fst snd loc_value]. unfold bf, byte_at. cbn [nth]. 
  do 3 f_equal; [f_equal|do 2 f_equal]; change (2 ^ Z.of_nat 0) with 1; change (2 ^ Z.of_nat 5) with 32; change (2 ^ Z.of_nat 3) with 8;
    Z.to_euclidean_division_equations; lia.
Qed.

Lemma codes_ok : forall codes, Forall (below 8) codes -> bytes_ok codes.
Proof. intros codes F. unfold bytes_ok. eapply Forall_impl; [|exact F]. intros a H. unfold below, byte_ok in *. lia. Qed.
Lemma one_byte : forall a l, 0 <= a < 256 -> bytes_ok l -> bytes_ok (a :: l).
Proof. intros. constructor; [unfold byte_ok; lia|assumption]. Qed.
Lemma first_ok : forall type qualifier, below 5 type -> below 3 qualifier -> 0 <= type + 32 * qualifier < 256.
Proof. unfold below. intros. lia. Qed.
Lemma slice_prefix : forall k (p l rest : bytes), length p = k -> slice k (k + length l) (p ++ l ++ rest) = l.
Proof.
  intros k p l rest <-. unfold slice. rewrite skipn_app, skipn_all, Nat.sub_diag. cbn [skipn app].
  replace (length p + length l - length p)%nat with (length l) by lia. rewrite firstn_app, firstn_all, Nat.sub_diag. cbn [firstn]. apply app_nil_r.
Qed.

Lemma page_00_reads : forall type qualifier codes, below 5 type -> below 3 qualifier -> Forall (below 8) codes -> zlen codes <= 255 ->
  reads_as 0 (page_00 type qualifier codes) (Ok (page_00_object type qualifier codes)).
Proof.
  intros type qualifier codes T Q F L m. pose proof (first_ok _ _ T Q) as FB. pose proof (codes_ok _ F) as B.
  assert (N : 0 <= zlen codes < 256) by (unfold zlen in *; lia).
  change (get_vpd_page_data 0) with supported_vpd_pages.
  assert (OB : bytes_ok (page_00 type qualifier codes ++ zeros m)).
  { unfold page_00. cbn [app]. repeat (apply one_byte; [lia|]). apply bytes_ok_app. split; [exact B|apply zeros_ok]. }
  rewrite supported_pages_spec by exact OB.
  assert (U : ub 3 4 (page_00 type qualifier codes ++ zeros m) = zlen codes) by (unfold ub, slice; cbn; lia).
  rewrite U. replace (Z.to_nat (zlen codes)) with (length codes) by (unfold zlen; lia).
  assert (LN : length (page_00 type qualifier codes ++ zeros m) = (4 + length codes + length (zeros m))%nat) by (cbn; rewrite app_length; lia).
  replace (4 <=? length (page_00 type qualifier codes ++ zeros m))%nat with true by (symmetry; apply Nat.leb_le; lia).
  replace (4 + length codes <=? length (page_00 type qualifier codes ++ zeros m))%nat with true by (symmetry; apply Nat.leb_le; lia).
  cbn [andb]. f_equal. unfold supported_pages_object, short_header, page_00_object. rewrite U.
  unfold page_00. rewrite <- app_assoc. replace (Z.to_nat (zlen codes)) with (length codes) by (unfold zlen; lia).
  rewrite (slice_prefix 4 _ codes (zeros m)) by reflexivity. cbn [app]. rewrite first_byte by assumption. reflexivity.
Qed.

Lemma page_80_reads : forall type qualifier serial, below 5 type -> below 3 qualifier -> bytes_ok serial -> zlen serial <= 255 ->
  reads_as 128 (page_80 type qualifier serial) (Ok (page_80_object type qualifier serial)).
Proof.
  intros type qualifier serial T Q B L m. pose proof (first_ok _ _ T Q) as FB.
  assert (N : 0 <= zlen serial < 256) by (unfold zlen in *; lia).
  change (get_vpd_page_data 128) with unit_serial_number. unfold page_80. cbn [app].
  assert (OB : bytes_ok ((type + 32 * qualifier) :: 128 :: 0 :: zlen serial :: serial ++ zeros m)).
  { repeat (apply one_byte; [lia|]). apply bytes_ok_app. split; [exact B|apply zeros_ok]. }
  rewrite serial_number_spec by exact OB. cbn [length Nat.leb]. f_equal. unfold serial_number_object, short_header, page_80_object.
  rewrite first_byte by assumption.
  replace (ub 3 4 ((type + 32 * qualifier) :: 128 :: 0 :: zlen serial :: serial ++ zeros m)) with (zlen serial) by (unfold ub, slice; cbn; lia).
  replace (Z.to_nat (zlen serial)) with (length serial) by (unfold zlen; lia).
  pose proof (slice_prefix 4 [type + 32 * qualifier; 128; 0; zlen serial] serial (zeros m) eq_refl) as SP. cbn [app] in SP. rewrite SP. reflexivity.
Qed.

Lemma page_83_reads : forall type qualifier l, below 5 type -> below 3 qualifier -> Forall designator_ok l -> zlen (flat_map descriptor_bytes l) < 65536 ->
  reads_as 131 (page_83 type qualifier (flat_map descriptor_bytes l)) (Ok (page_83_object type qualifier (zlen (flat_map descriptor_bytes l)) l)).
Proof. intros type qualifier l T Q F L m. apply page_83_spec; auto. apply zeros_ok. Qed.

Lemma other_page_data : forall code, known_page code known_vpd_pages = None -> get_vpd_page_data code = unknown_vpd_page.
Proof.
  intros code. unfold known_vpd_pages. cbn [known_page].
  repeat (match goal with |- context [code =? ?c] => destruct (Z.eqb_spec code c) as [->|]; [discriminate|] end). intros _.
  unfold get_vpd_page_data. destruct code as [|p|p]; [contradiction| |reflexivity]. do 8 (destruct p as [p|p|]; try reflexivity; try lia).
Qed.
Lemma other_reads : forall type qualifier code data, below 5 type -> below 3 qualifier -> below 8 code -> bytes_ok data -> zlen data < 65536 ->
  known_page code known_vpd_pages = None ->
  reads_as code (other_page type qualifier code data) (Ok (other_page_object type qualifier code data)).
Proof.
  intros type qualifier code data T Q C B L K m. pose proof (first_ok _ _ T Q) as FB. rewrite (other_page_data _ K).
  assert (N : 0 <= zlen data < 65536) by (unfold zlen in *; lia). unfold below in C.
  assert (E : other_page type qualifier code data ++ zeros m =
              (type + 32 * qualifier) :: code :: zlen data / 256 :: zlen data mod 256 :: data ++ zeros m).
  { unfold other_page. cbn [be_bytes app]. do 2 f_equal. f_equal. rewrite Z.mod_small; [reflexivity|Z.to_euclidean_division_equations; lia]. }
  rewrite E. set (n := zlen data) in *.
  assert (OB : bytes_ok ((type + 32 * qualifier) :: code :: n / 256 :: n mod 256 :: data ++ zeros m)).
  { repeat (apply one_byte; [Z.to_euclidean_division_equations; lia|]). apply bytes_ok_app. split; [exact B|apply zeros_ok]. }
  rewrite unknown_page_spec by exact OB. cbn [length Nat.leb]. f_equal. unfold unknown_page_object, other_page_object.
  rewrite first_byte by assumption.
  replace (ub 2 4 ((type + 32 * qualifier) :: code :: n / 256 :: n mod 256 :: data ++ zeros m)) with n
    by (unfold ub, slice; cbn; Z.to_euclidean_division_equations; lia).
  replace (ub 1 2 ((type + 32 * qualifier) :: code :: n / 256 :: n mod 256 :: data ++ zeros m)) with code by (unfold ub, slice; cbn; lia).
  replace (Z.to_nat n) with (length data) by (subst n; unfold zlen; lia).
  pose proof (slice_prefix 4 [type + 32 * qualifier; code; n / 256; n mod 256] data (zeros m) eq_refl) as SP. cbn [app] in SP. rewrite SP. reflexivity.
Qed.

Lemma loc_firstn : forall l n buf, (loc_end l <= n)%nat -> loc_value l (firstn n buf) = loc_value l buf.
Proof.
  intros [a b|a b|k lo w|a b lo w|k lo w j] n buf L; cbn [loc_end loc_value] in *; unfold sb, ub, bf.
  all: repeat (rewrite VpdFacts.slice_firstn by lia); repeat (rewrite VpdFacts.byte_at_firstn by lia); reflexivity.
Qed.
Lemma layout_prefix : forall l page m, (layout_end l <= length page)%nat -> layout_values l (page ++ zeros m) = layout_values l page.
Proof.
  intros l page m L. unfold layout_values. apply map_ext_in. intros e I. do 2 f_equal.
  assert (X : (loc_end (snd e) <= length page)%nat).
  { unfold layout_end in L. pose proof (proj1 (list_max_le _ _) L) as M. rewrite Forall_forall in M. apply M.
    apply in_map_iff. exists e. auto. }
  rewrite <- (loc_firstn _ (length page) (page ++ zeros m)) by exact X.
  rewrite firstn_app, firstn_all, Nat.sub_diag. cbn [firstn]. f_equal. apply app_nil_r.
Qed.
Lemma peripheral_prefix : forall page m, (1 <= length page)%nat -> peripheral_value (page ++ zeros m) = peripheral_value page.
Proof. intros page m L. unfold peripheral_value. do 2 f_equal. apply layout_prefix; exact L. Qed.
Lemma padded_ok : forall page m, bytes_ok page -> bytes_ok (page ++ zeros m).
Proof. intros. apply bytes_ok_app. split; [assumption|apply zeros_ok]. Qed.

Lemma limits_reads : forall page, bytes_ok page -> (44 <= length page)%nat ->
  reads_as 176 page (Ok (PObj "BlockLimitsVPDPageBuffer" (peripheral_value page :: layout_values block_limits_layout page))).
Proof.
  intros page B L m. change (get_vpd_page_data 176) with block_limits. rewrite block_limits_spec by (apply padded_ok; exact B).
  replace (44 <=? length (page ++ zeros m))%nat with true by (symmetry; apply Nat.leb_le; rewrite app_length; lia).
  rewrite peripheral_prefix by lia. rewrite layout_prefix; [reflexivity|cbn; lia].
Qed.

Lemma veritas_reads : forall page, bytes_ok page -> (6 <= length page)%nat ->
  reads_as 192 page (Ok (PObj "VeritasVPDPageBuffer" (peripheral_value page :: layout_values veritas_layout page))).
Proof.
  intros page B L m. change (get_vpd_page_data 192) with veritas. rewrite veritas_spec by (apply padded_ok; exact B).
  replace (6 <=? length (page ++ zeros m))%nat with true by (symmetry; apply Nat.leb_le; rewrite app_length; lia).
  rewrite peripheral_prefix by lia. rewrite layout_prefix; [reflexivity|cbn; lia].
Qed.
Lemma cut_prefix : forall a b page m, (b <= length page)%nat -> slice a b (page ++ zeros m) = slice a b page.
Proof.
  intros a b page m L. rewrite <- (slice_firstn (length page) a b (page ++ zeros m)) by exact L.
  rewrite firstn_app, Nat.sub_diag, firstn_all. cbn [firstn]. rewrite app_nil_r. reflexivity.
Qed.
Lemma sb_prefix : forall a b page m, (b <= length page)%nat -> sb a b (page ++ zeros m) = sb a b page.
Proof. intros a b page m L. unfold sb, ub. rewrite cut_prefix by exact L. reflexivity. Qed.
Lemma bf_prefix : forall k lo w page m, (k < length page)%nat -> bf k lo w (page ++ zeros m) = bf k lo w page.
Proof. intros k lo w page m L. unfold bf, byte_at. rewrite app_nth1 by exact L. reflexivity. Qed.
Lemma text_prefix : forall a b page m, (60 + 2 * b <= length page)%nat -> identify_text a b (page ++ zeros m) = identify_text a b page.
Proof.
  intros a b page m L. unfold identify_text. rewrite !flat_map_concat_map. f_equal. apply map_ext_in. intros w W. apply in_seq in W.
  rewrite !cut_prefix by lia. reflexivity.
Qed.
Lemma ata_reads : forall page, bytes_ok page -> (152 <= length page)%nat -> reads_as 137 page (Ok (ata_object 46 page)).
Proof.
  intros page B L m. change (get_vpd_page_data 137) with ata_information. rewrite ata_spec by (apply padded_ok; exact B).
  replace (57 <=? length (page ++ zeros m))%nat with true by (symmetry; apply Nat.leb_le; rewrite app_length; lia).
  unfold ata_object, signature_object, identify_object.
  rewrite peripheral_prefix by lia. rewrite !sb_prefix by lia. rewrite !bf_prefix by lia. rewrite !text_prefix by lia.
  rewrite !cut_prefix by lia. reflexivity.
Qed.

Lemma provisioned_reads : forall head d, bytes_ok head -> length head = 8%nat -> designator_ok d ->
  reads_as 178 (head ++ descriptor_bytes d) (Ok (provisioning_object head (designator_object d))).
Proof.
  intros head d B L D m. change (get_vpd_page_data 178) with logical_block_provisioning. rewrite <- app_assoc.
  pose proof (provisioning_long head d (zeros m) B L D (zeros_ok m)) as P. cbv zeta in P. rewrite P. clear P. unfold provisioning_object.
  assert (E : forall l tail, (layout_end l <= length head)%nat -> layout_values l (head ++ tail) = layout_values l head).
  { intros l tail LE. unfold layout_values. apply map_ext_in. intros e I. do 2 f_equal.
    assert (X : (loc_end (snd e) <= length head)%nat).
    { unfold layout_end in LE. pose proof (proj1 (list_max_le _ _) LE) as M. rewrite Forall_forall in M. apply M.
      apply in_map_iff. exists e. auto. }
    rewrite <- (loc_firstn _ (length head) (head ++ tail)) by exact X.
    rewrite firstn_app, Nat.sub_diag, firstn_all. cbn [firstn]. rewrite app_nil_r. reflexivity. }
  unfold peripheral_value. rewrite !E; [reflexivity| |]; rewrite L; cbn; lia.
Qed.

(** * Device identification pages that are cut *)

Lemma page_start : forall type qualifier n body, below 5 type -> below 3 qualifier -> bytes_ok body -> 0 <= n < 65536 ->
  forall k, let buf := [type + 32 * qualifier; 131] ++ be_bytes 2 n ++ body in
  unpack_fields (r_peripheral_device :: ("page_code", r_uint (byte_of 1)) :: ("page_length", r_uint (bytes_of 2 4)) :: k) [] buf =
  unpack_fields k [("peripheral_device", PObj "PeripheralDeviceDataBuffer" [("type", PInt type); ("qualifier", PInt qualifier)]);
     ("page_code", PInt 131); ("page_length", PInt n)] buf.
Proof.
  intros type qualifier n body T Q B L k buf. pose proof (first_ok _ _ T Q) as FB.
  assert (O : bytes_ok buf).
  { subst buf. cbn [app]. repeat (apply one_byte; [lia|]). apply bytes_ok_app. split; [apply be_bytes_ok|exact B]. }
  assert (LE : (4 <= length buf)%nat) by (subst buf; cbn [app length]; rewrite app_length, be_bytes_length; lia).
  rewrite uf_peripheral by exact O. replace (1 <=? length buf)%nat with true by (symmetry; apply Nat.leb_le; lia).
  cbn [unpack_fields]. unfold r_uint, r_int. rewrite byte_of_bytes, !read_bytes by (try exact O; lia).
  replace (2 <=? length buf)%nat with true by (symmetry; apply Nat.leb_le; lia).
  replace (4 <=? length buf)%nat with true by (symmetry; apply Nat.leb_le; lia). cbn [bind app].
  replace (peripheral_value buf) with (device_value type qualifier) by (symmetry; apply first_byte; assumption).
  change (ub 1 2 buf) with 131.
  replace (ub 2 4 buf) with n; [reflexivity|].
  subst buf. rewrite (ub_in 2 4 [type + 32 * qualifier; 131] (be_bytes 2 n)) by (try reflexivity; apply be_bytes_length).
  symmetry. apply be_val_be_bytes_small. change (256 ^ Z.of_nat 2) with 65536. lia.
Qed.

Lemma short_header_fails : forall bad, bytes_ok bad -> (length bad < 4)%nat -> designator_element bad = Err EInstruct.
Proof.
  intros bad O L. unfold designator_element, determine_designator.
  rewrite <- (app_nil_r (map reader_of designator_header)). rewrite (unpack_layout _ header_layout) by (auto; reflexivity).
  change (layout_end header_layout) with 4%nat. destruct (Nat.leb_spec 4 (length bad)); [lia|]. reflexivity.
Qed.
Lemma cut_identification : forall type qualifier l more padded, below 5 type -> below 3 qualifier -> Forall designator_ok l -> bytes_ok more ->
  245 <= zlen (flat_map descriptor_bytes l) <= 248 -> 248 < zlen (flat_map descriptor_bytes l ++ more) < 65536 ->
  unpack device_identification (filled padded 252 (firstn (Z.to_nat 252) (page_83 type qualifier (flat_map descriptor_bytes l ++ more)))) =
  if zlen (flat_map descriptor_bytes l) =? 248 then Ok (page_83_object type qualifier (zlen (flat_map descriptor_bytes l ++ more)) l) else Err EInstruct.
Proof.
  intros type qualifier l more padded T Q F O L1 L2. set (n := zlen (flat_map descriptor_bytes l ++ more)) in *.
  assert (D : Forall (decodes descriptor_bytes designator_object designator_element) l)
    by (eapply Forall_impl; [|exact F]; apply designator_decodes).
  assert (OD : bytes_ok (flat_map descriptor_bytes l)) by (eapply enc_ok; exact D).
  set (bad := firstn (248 - length (flat_map descriptor_bytes l)) more).
  assert (OB : bytes_ok bad) by (apply bytes_ok_firstn; exact O).
  assert (E : filled padded 252 (firstn (Z.to_nat 252) (page_83 type qualifier (flat_map descriptor_bytes l ++ more))) =
              [type + 32 * qualifier; 131] ++ be_bytes 2 n ++ flat_map descriptor_bytes l ++ bad).
  { assert (C : firstn (Z.to_nat 252) (page_83 type qualifier (flat_map descriptor_bytes l ++ more)) =
                [type + 32 * qualifier; 131] ++ be_bytes 2 n ++ flat_map descriptor_bytes l ++ bad).
    { change (page_83 type qualifier (flat_map descriptor_bytes l ++ more)) with ([type + 32 * qualifier; 131] ++ be_bytes 2 n ++ flat_map descriptor_bytes l ++ more).
      rewrite (app_assoc [type + 32 * qualifier; 131] (be_bytes 2 n)), (app_assoc [type + 32 * qualifier; 131] (be_bytes 2 n)).
      assert (H4 : length ([type + 32 * qualifier; 131] ++ be_bytes 2 n) = 4%nat) by (rewrite app_length, be_bytes_length; reflexivity).
      rewrite firstn_app, H4. rewrite firstn_all2 by (rewrite H4; lia). f_equal. replace (Z.to_nat 252 - 4)%nat with 248%nat by reflexivity.
      rewrite firstn_app. rewrite firstn_all2 by (unfold zlen in L1; lia). reflexivity. }
    rewrite C. unfold filled. rewrite <- app_nil_r. f_equal.
    assert (LC : length ([type + 32 * qualifier; 131] ++ be_bytes 2 n ++ flat_map descriptor_bytes l ++ bad) = 252%nat).
    { rewrite !app_length, be_bytes_length. unfold bad. rewrite firstn_length. unfold n, zlen in *. rewrite app_length in L2. cbn [length]. lia. }
    rewrite LC. destruct padded; reflexivity. }
  rewrite E. unfold unpack, device_identification. cbn [c_fields c_name].
  rewrite page_start; [|assumption|assumption|apply bytes_ok_app; split; assumption|unfold n, zlen in *; lia].
  cbn [unpack_fields]. unfold r_list, plus. change (int_attr "page_length" _) with n.
  assert (S : slice 4 (Z.to_nat (4 + n)) ([type + 32 * qualifier; 131] ++ be_bytes 2 n ++ flat_map descriptor_bytes l ++ bad) = flat_map descriptor_bytes l ++ bad).
  { unfold slice. rewrite !app_assoc. rewrite <- (app_assoc _ (flat_map descriptor_bytes l)).
    rewrite skipn_app. rewrite skipn_all2 by (rewrite app_length, be_bytes_length; cbn; lia).
    rewrite app_length, be_bytes_length. cbn [length Nat.add Nat.sub skipn app].
    apply firstn_all2. subst bad. unfold n, zlen in *. rewrite !app_length. rewrite firstn_length. rewrite app_length in L2. lia. }
  rewrite S. destruct (Z.eqb_spec (zlen (flat_map descriptor_bytes l)) 248) as [E8|E8].
  - assert (bad = []) as ->.
    { unfold bad. replace (248 - length (flat_map descriptor_bytes l))%nat with 0%nat by (unfold zlen in E8; lia). reflexivity. }
    rewrite app_nil_r. rewrite (read_list_enc descriptor_bytes designator_object) by exact D. reflexivity.
  - unfold read_list. rewrite (list_all_fails descriptor_bytes designator_object designator_element l bad _ EInstruct); auto.
    + unfold bad. intro N. apply (f_equal (@length Z)) in N. rewrite firstn_length in N. unfold n, zlen in *. rewrite app_length in L2. cbn [length] in N. lia.
    + apply short_header_fails; [exact OB|]. unfold bad. rewrite firstn_length. unfold zlen in *. lia.
Qed.

(** * All the pages *)

Section All.
Context (T : Type) (sys : system T) (tgt : target T).

Lemma all_pages_run : forall type qualifier codes page res t s, one_of_four sys -> idle sys s t ->
  reports_pages tgt codes page -> below 5 type -> below 3 qualifier -> zlen codes <= 248 -> In 0 codes ->
  page 0 = page_00 type qualifier codes -> res 0 = Ok (page_00_object type qualifier codes) ->
  (forall code, In code codes -> 0 < zlen (page code) <= fst (vpd_page code)) ->
  (forall code, In code codes -> reads_as code (page code) (res code)) ->
  exists s' t', sync_wait_ends (coroutine (os_of sys tgt) all_pages) s s' (shown (listed (collected codes res))) /\ idle sys s' t'.
Proof.
  intros type qualifier codes page res t s F Hi D T0 Q N I0 P0 R0 L R.
  destruct (page_read tgt (pads sys) codes page res D L R 0
              (fun r => match r with
                        | Ok (PObj _ l) => match lookup "vpd_parameters" l with Some (PList codes) => visit codes [] | _ => Fail EAttribute end
                        | Ok _ => Fail EAttribute
                        | Err e => Fail e
                        end) t I0) as (t1 & X).
  destruct (visits tgt (pads sys) codes page res D L R codes [] t1 (fun _ H => H)) as (t' & Y).
  assert (Z0 : does tgt (pads sys) t all_pages t' (listed (collected codes res))).
  { apply X. rewrite R0. unfold page_00_object. cbn [lookup String.eqb Ascii.eqb Bool.eqb device_value]. 
    destruct (collected codes res); exact Y. }
  destruct (adaptive _ _ _ _ _ _ _ _ F Z0 Hi) as (s' & E & J). eauto.
Qed.

Lemma visit_one : forall code page v t s, one_of_four sys -> idle sys s t ->
  reports_pages tgt [code] (fun _ => page) -> unpack (get_vpd_page_data code) (filled (pads sys) (fst (vpd_page code)) (firstn (Z.to_nat (fst (vpd_page code))) page)) = v ->
  0 < zlen page ->
  exists s' t', sync_wait_ends (coroutine (os_of sys tgt) (Do (vpd_command code) finish)) s s' (shown v) /\ idle sys s' t'.
Proof.
  intros code page v t s F Hi [B Ans] U L. inversion_clear B. destruct (vpd_issued code H) as (cdb & J & X).
  destruct (Ans t cdb [] code _ (or_introl eq_refl) X) as (t1 & E). pose proof (vpd_allocation code) as A.
  assert (D : does tgt (pads sys) t (Do (vpd_command code) finish) t1 v).
  { apply (does_seen _ _ _ _ (vpd_command code) _ _ t1 (good (firstn (Z.to_nat (fst (vpd_page code))) page)) v _ _ Logic.I J); [cbn [moderate]; lia|exact E|apply ordinary_good| |destruct v; constructor].
    unfold vpd_command. rewrite seen_nice.
    rewrite <- (firstn_all2 (n := Z.to_nat (fst (vpd_page code))) (firstn (Z.to_nat (fst (vpd_page code))) page)) by (rewrite firstn_length; lia).
    rewrite got_page; [exact U|]. unfold zlen in *. rewrite firstn_length. lia. }
  destruct (adaptive _ _ _ _ _ _ _ _ F D Hi) as (s' & E' & J'). eauto.
Qed.

Lemma announced_pages : forall type qualifier codes padded, below 5 type -> below 3 qualifier -> Forall (below 8) codes -> 248 < zlen codes <= 255 ->
  unpack supported_vpd_pages (filled padded 252 (firstn (Z.to_nat 252) (page_00 type qualifier codes))) = Err EInstruct.
Proof.
  intros type qualifier codes padded T0 Q B L. pose proof (first_ok _ _ T0 Q) as FB.
  assert (LN : length (filled padded 252 (firstn (Z.to_nat 252) (page_00 type qualifier codes))) = 252%nat).
  { unfold filled. rewrite app_length, firstn_length. assert (length (page_00 type qualifier codes) = (4 + length codes)%nat) as -> by (cbn; lia).
    unfold zlen in L. assert (Z : forall m, length (zeros m) = m) by (intros; apply repeat_length). rewrite Z. destruct padded; lia. }
  rewrite supported_pages_spec.
  - assert (U : ub 3 4 (filled padded 252 (firstn (Z.to_nat 252) (page_00 type qualifier codes))) = zlen codes).
    { unfold filled, page_00. change (Z.to_nat 252) with (4 + 248)%nat. unfold ub, slice. cbn [Nat.add app firstn skipn]. cbn. lia. }
    rewrite U, LN. destruct (Nat.leb_spec (4 + Z.to_nat (zlen codes)) 252); [lia|]. reflexivity.
  - unfold filled. apply padded_ok. apply bytes_ok_firstn. unfold page_00. cbn [app]. repeat (apply one_byte; [lia|]). apply codes_ok. exact B.
Qed.
Lemma too_many_pages_run : forall type qualifier codes t s, one_of_four sys -> idle sys s t ->
  reports_pages tgt [0] (fun _ => page_00 type qualifier codes) -> below 5 type -> below 3 qualifier -> Forall (below 8) codes -> 248 < zlen codes <= 255 ->
  exists s' t', sync_wait_ends (coroutine (os_of sys tgt) (Do (vpd_command 0) finish)) s s' (shown (Err EInstruct)) /\ idle sys s' t'.
Proof.
  intros type qualifier codes t s F Hi D T0 Q B L. eapply visit_one; [exact F|exact Hi|exact D| |].
  - apply announced_pages; assumption.
  - unfold page_00, zlen. cbn [app length]. lia.
Qed.

Lemma long_identification_run : forall type qualifier l more t s, one_of_four sys -> idle sys s t ->
  reports_pages tgt [131] (fun _ => page_83 type qualifier (flat_map descriptor_bytes l ++ more)) ->
  below 5 type -> below 3 qualifier -> Forall designator_ok l -> bytes_ok more ->
  245 <= zlen (flat_map descriptor_bytes l) <= 248 -> 248 < zlen (flat_map descriptor_bytes l ++ more) < 65536 ->
  exists s' t', sync_wait_ends (coroutine (os_of sys tgt) (Do (vpd_command 131) finish)) s s'
    (shown (if zlen (flat_map descriptor_bytes l) =? 248 then Ok (page_83_object type qualifier (zlen (flat_map descriptor_bytes l ++ more)) l)
            else Err EInstruct)) /\ idle sys s' t'.
Proof.
  intros type qualifier l more t s F Hi D T0 Q G O L1 L2. eapply visit_one; [exact F|exact Hi|exact D| |].
  - apply cut_identification; assumption.
  - unfold page_83, zlen. cbn [length]. lia.
Qed.

Lemma provisioning_run : forall page t s, one_of_four sys -> idle sys s t ->
  reports_pages tgt [178] (fun _ => page) -> bytes_ok page -> length page = 8%nat ->
  exists s' t', sync_wait_ends (coroutine (os_of sys tgt) (Do (vpd_command 178) finish)) s s'
    (shown (Ok (provisioning_object page (if pads sys then empty_designator else PNone)))) /\ idle sys s' t'.
Proof.
  intros page t s F Hi D B L. eapply visit_one; [exact F|exact Hi|exact D| |unfold zlen; lia].
  change (fst (vpd_page 178)) with 252. change (get_vpd_page_data 178) with logical_block_provisioning.
  rewrite firstn_all2 by lia. unfold filled. rewrite L. destruct (pads sys).
  - change (Z.to_nat 252 - 8)%nat with (4 + 240)%nat.
    pose proof (provisioning_long page (Designator (DesignatorInfo 0 0 0 0) (VendorSpecific [])) (zeros 240) B L) as P.
    change (zeros (4 + 240)) with ([0; 0; 0; 0] ++ zeros 240). cbv zeta in P.
    change (descriptor_bytes (Designator (DesignatorInfo 0 0 0 0) (VendorSpecific []))) with [0; 0; 0; 0] in P.
    change ([0; 0; 0; 0] ++ zeros 240) with (zeros 244) in *.
    rewrite peripheral_prefix in P by lia. rewrite layout_prefix in P by (rewrite L; cbn; lia).
    apply P; [|apply zeros_ok]. vm_compute. repeat split; try congruence; try (intro; discriminate); constructor.
  - cbn [zeros repeat]. rewrite app_nil_r. rewrite provisioning_short by (auto; lia). rewrite L. reflexivity.
Qed.

(** * SES pages *)

Lemma ses_issued : forall lib code conf, below 8 code ->
  exists cdb, issued (ses_command lib code conf) = Ok (ReadCmd cdb (ses_allocation code)) /\
    interpret cdb = Some (OpReceiveDiagnostic 1 code (ses_allocation code)).
Proof.
  intros lib code conf B. pose proof (ses_allocation_range code) as A. unfold ses_command.
  pose proof (receive_diagnostic_spec code (ses_allocation code) (get_ses_page_data lib code conf)) as S. unfold issued. cbn [constructed].
  destruct (do o <- receive_diagnostic code _ _; request o) as [k|e] eqn:J.
  - destruct (asks_ok _ _ _ _ _ S eq_refl) as (_ & cdb & -> & X). eauto.
  - exfalso. apply S. unfold below in B. lia.
Qed.
Lemma ses_read : forall lib code conf page next padded t (k : result pyval -> prog) v t' r, reports_diagnostics tgt page next -> below 8 code ->
  0 < zlen (page t code) <= ses_allocation code -> (forall m, get_ses_page_data lib code conf (page t code ++ zeros m) = v) ->
  does tgt padded (next t) (k v) t' r -> does tgt padded t (Do (ses_command lib code conf) k) t' r.
Proof.
  intros lib code conf page next padded t k v t' r D B L G E. destruct (ses_issued lib code conf B) as (cdb & J & X).
  pose proof (ses_allocation_range code) as A.
  eapply does_seen; [exact Logic.I|exact J|cbn [moderate]; lia|apply (D t cdb [] code _ X)|apply ordinary_good| |exact E].
  unfold ses_command. rewrite diagnostic_seen by exact L. apply G.
Qed.

Lemma ses_page_length : forall code byte1 gen body, zlen (ses_page code byte1 gen body) = 8 + zlen body.
Proof. intros. unfold ses_page, zlen. rewrite !app_length, !be_bytes_length. cbn [length]. lia. Qed.

Lemma configuration_does : forall lib page next padded t gen l k t' r, reports_diagnostics tgt page next ->
  page t 1 = configuration_page gen l -> moderate_configuration l -> 0 <= gen < 2 ^ 32 ->
  does tgt padded (next t) (k (Ok (whole_configuration gen l))) t' r -> does tgt padded t (Do (ses_command lib 1 PNone) k) t' r.
Proof.
  intros lib page next padded t gen l k t' r D P (M1 & M2 & M3 & M4 & M5 & M6) G E.
  eapply ses_read; [exact D|unfold below; lia| | |exact E].
  - rewrite P. unfold configuration_page. rewrite ses_page_length. change (ses_allocation 1) with 65535. unfold zlen in *. lia.
  - intro m. cbn [get_ses_page_data]. rewrite P. apply configuration_spec; auto; [|lia|apply zeros_ok].
    eapply Forall_impl; [|exact M5]. intros a H. apply H.
Qed.

Lemma retyped_types : forall types gs, length types = length gs -> map g_type (retyped types gs) = types.
Proof.
  induction types as [|a types IH]; intros [|g gs] L; try discriminate; [reflexivity|]. cbn. f_equal. apply IH. injection L. auto.
Qed.
Lemma retyped_data : forall enc types gs, length types = length gs -> flat_map (group_data enc) (retyped types gs) = flat_map (group_data enc) gs.
Proof.
  intro enc. induction types as [|a types IH]; intros [|g gs] L; try discriminate; [reflexivity|]. cbn. f_equal. apply IH. injection L. auto.
Qed.
Lemma retyped_forall : forall (P : Z -> bytes -> list bytes -> Prop) types gs, map t_elements types = map (fun g => t_elements (g_type g)) gs ->
  Forall (fun g => P (t_elements (g_type g)) (g_overall g) (g_elements g)) gs ->
  Forall (fun g => P (t_elements (g_type g)) (g_overall g) (g_elements g)) (retyped types gs).
Proof.
  intro P. induction types as [|a types IH]; intros [|g gs] L F; try discriminate; [constructor|]. cbn. injection L as L1 L2.
  inversion_clear F. constructor; [cbn; rewrite L1; assumption|]. apply IH; assumption.
Qed.
Lemma retyped_same : forall gs, retyped (map g_type gs) gs = gs.
Proof. induction gs as [|g gs IH]; [reflexivity|]. cbn. f_equal; [destruct g; reflexivity|exact IH]. Qed.
Lemma same_length : forall types (gs : list (group bytes)), map t_elements types = map (fun g => t_elements (g_type g)) gs -> length types = length gs.
Proof. intros types gs H. apply (f_equal (@length Z)) in H. rewrite !map_length in H. exact H. Qed.

Lemma configuration_run : forall lib page next gen l t s, one_of_four sys -> idle sys s t -> reports_diagnostics tgt page next ->
  page t 1 = configuration_page gen l -> moderate_configuration l -> 0 <= gen < 2 ^ 32 ->
  exists s', sync_wait_ends (coroutine (os_of sys tgt) (show_ses lib 1)) s s' (shown (Ok (whole_configuration gen l))) /\ idle sys s' (next t).
Proof.
  intros lib page next gen l t s F Hi D P M G.
  eapply adaptive; [exact F| |exact Hi]. change (show_ses lib 1) with (Do (ses_command lib 1 PNone) finish).
  eapply configuration_does; eauto. constructor.
Qed.

Lemma status_run : forall lib page next cgen l flags gen gs t s, one_of_four sys -> idle sys s t -> reports_diagnostics tgt page next ->
  page t 1 = configuration_page cgen l -> moderate_configuration l -> 0 <= cgen < 2 ^ 32 ->
  page (next t) 2 = status_page flags gen gs -> map t_elements (all_types l) = map (fun g => t_elements (g_type g)) gs ->
  Forall (fun g => group_complete g /\ Forall (text_of_length 4) (g_overall g :: g_elements g)) gs ->
  is_byte flags -> 0 <= gen < 2 ^ 32 -> zlen (status_body gs) <= 65527 ->
  exists s', sync_wait_ends (coroutine (os_of sys tgt) (show_ses lib 2)) s s'
    (shown (Ok (status_page_object flags gen (zlen (status_body gs)) (map status_group_object (retyped (all_types l) gs))))) /\ idle sys s' (next (next t)).
Proof.
  intros lib page next cgen l flags gen gs t s F Hi D P M CG P2 TE GS FL G L. pose proof (same_length _ _ TE) as LE.
  eapply adaptive; [exact F| |exact Hi].
  change (show_ses lib 2) with
    (Do (ses_command lib 1 PNone) (fun r => match r with Ok conf => Do (ses_command lib 2 conf) finish | Err e => Fail e end)).
  eapply configuration_does; eauto. cbv iota beta.
  eapply ses_read with (v := Ok (status_page_object flags gen (zlen (status_body gs)) (map status_group_object (retyped (all_types l) gs))));
    [exact D|unfold below; lia| | |apply does_return].
  - rewrite P2. unfold status_page. rewrite ses_page_length. change (ses_allocation 2) with 65535. unfold zlen in *. lia.
  - intro m. cbn [get_ses_page_data]. rewrite P2.
    assert (E : status_body gs = status_body (retyped (all_types l) gs)) by (symmetry; apply retyped_data; exact LE).
    replace (status_page flags gen gs) with (status_page flags gen (retyped (all_types l) gs)) by (unfold status_page; rewrite E; reflexivity).
    rewrite E. rewrite status_page_spec; auto; [apply retyped_types; exact LE| |rewrite <- E; lia|apply zeros_ok].
    assert (LT : Forall (fun g : group bytes => t_elements (g_type g) < 128) gs).
    { destruct M as (_ & _ & _ & _ & M5 & _). apply Forall_forall. intros g I.
      assert (J : In (t_elements (g_type g)) (map t_elements (all_types l))) by (rewrite TE; apply (in_map (fun g => t_elements (g_type g))); exact I).
      apply in_map_iff in J. destruct J as (ty & <- & J). rewrite Forall_forall in M5. apply (M5 ty J). }
    apply (retyped_forall (fun n o el => zlen el = n /\ n < 128 /\ Forall (text_of_length 4) (o :: el))); [exact TE|].
    rewrite Forall_forall in *. intros g I. destruct (GS g I) as [C1 C2]. split; [exact C1|split; [apply LT; exact I|exact C2]].
Qed.
Lemma descriptors_run : forall lib page next cgen l gen gs t s, one_of_four sys -> idle sys s t -> reports_diagnostics tgt page next ->
  page t 1 = configuration_page cgen l -> moderate_configuration l -> 0 <= cgen < 2 ^ 32 ->
  page (next t) 7 = descriptor_page gen gs -> map t_elements (all_types l) = map (fun g => t_elements (g_type g)) gs ->
  Forall (fun g => group_complete g /\ Forall (fun t => bytes_ok t /\ zlen t < 32768) (g_overall g :: g_elements g)) gs ->
  0 <= gen < 2 ^ 32 -> zlen (descriptor_body gs) <= 65527 ->
  exists s', sync_wait_ends (coroutine (os_of sys tgt) (show_ses lib 7)) s s'
    (shown (Ok (descriptor_page_object gen (zlen (descriptor_body gs)) (map descriptor_group_object (retyped (all_types l) gs))))) /\ idle sys s' (next (next t)).
Proof.
  intros lib page next cgen l gen gs t s F Hi D P M CG P2 TE GS G L. pose proof (same_length _ _ TE) as LE.
  eapply adaptive; [exact F| |exact Hi].
  change (show_ses lib 7) with
    (Do (ses_command lib 1 PNone) (fun r => match r with Ok conf => Do (ses_command lib 7 conf) finish | Err e => Fail e end)).
  eapply configuration_does; eauto. cbv iota beta.
  eapply ses_read with (v := Ok (descriptor_page_object gen (zlen (descriptor_body gs)) (map descriptor_group_object (retyped (all_types l) gs))));
    [exact D|unfold below; lia| | |apply does_return].
  - rewrite P2. unfold descriptor_page. rewrite ses_page_length. change (ses_allocation 7) with 65535. unfold zlen in *. lia.
  - intro m. cbn [get_ses_page_data]. rewrite P2.
    assert (E : descriptor_body gs = descriptor_body (retyped (all_types l) gs)) by (symmetry; apply retyped_data; exact LE).
    replace (descriptor_page gen gs) with (descriptor_page gen (retyped (all_types l) gs)) by (unfold descriptor_page; rewrite E; reflexivity).
    rewrite E. rewrite descriptor_page_spec; auto; [apply retyped_types; exact LE| |rewrite <- E; lia|apply zeros_ok].
    assert (LT : Forall (fun g : group bytes => t_elements (g_type g) < 128) gs).
    { destruct M as (_ & _ & _ & _ & M5 & _). apply Forall_forall. intros g I.
      assert (J : In (t_elements (g_type g)) (map t_elements (all_types l))) by (rewrite TE; apply (in_map (fun g => t_elements (g_type g))); exact I).
      apply in_map_iff in J. destruct J as (ty & <- & J). rewrite Forall_forall in M5. apply (M5 ty J). }
    apply (retyped_forall (fun n o el => zlen el = n /\ n < 128 /\ Forall (fun t => bytes_ok t /\ zlen t < 32768) (o :: el))); [exact TE|].
    rewrite Forall_forall in *. intros g I. destruct (GS g I) as [C1 C2]. split; [exact C1|split; [apply LT; exact I|exact C2]].
Qed.
End All.
