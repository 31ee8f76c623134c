(** Lemmas about the four request structures in memory. *)
From Coq Require Import String ZArith List Bool Arith Lia.
From Verif Require Import Base BaseFacts OsCommon OsLinux OsSolaris OsAix OsWin32 Ctypes SpecAbi CtypesFacts.
Import ListNotations.
Local Open Scope string_scope.
Local Open Scope list_scope.
Local Open Scope Z_scope.

Lemma fits_u : forall n al z, 0 <= z < 256 ^ Z.of_nat n -> fits (Scalar n al false) (CNum z).
Proof. auto. Qed.

Lemma fits_pointer : forall a loc p, addresses a loc -> fits (t_void_p a) (pointer loc p).
Proof.
  intros a loc [x|] H; cbn [pointer t_void_p fits]; [apply H|].
  pose proof (pow256_pos (ptr_bytes a)). lia.
Qed.

Ltac small := first [apply wrap_small | apply int_small | apply short_small]; lia.

Ltac fit :=
  match goal with
  | |- fits (t_void_p _) (pointer _ _) => apply fits_pointer; assumption
  | |- fits (ByteArray _) (CBytes _) => cbn [fits]
  | |- fits (t_void_p ?a) (CNum 0) => apply (fits_pointer a (fun _ => 0) None); intro; pose proof (pow256_pos (ptr_bytes a)); lia
  | |- fits _ (CNum ?z) => cbn; lia
  end.

(** Linux. *)
Lemma sgio_created : forall packet c timeout h, sensible c -> 0 <= timeout < 4294967296 ->
  -2147483648 <= packet < 2147483648 ->
  exists dir len p h3 d,
    sgio_create packet c timeout h =
      (h ++ zeros 255 :: command_of c :: h3,
       Sgio (SgHdr 83 dir (zlen (command_of c)) 255 len p (Some (Datatypes.S (length h))) (Some (length h)) timeout 1 packet 0 0 0 0) d) /\
    0 <= len < 4294967296 /\ -3 <= dir < 0 /\
    match c with
    | ReadCmd _ n =>
      if 0 <? n then dir = -3 /\ len = n /\ p = Some (Datatypes.S (Datatypes.S (length h))) /\ h3 = [zeros (Z.to_nat n)]
      else dir = -1 /\ len = 0 /\ p = None
    | WriteCmd _ data => dir = -2 /\ len = zlen data /\ p = Some (Datatypes.S (Datatypes.S (length h))) /\ h3 = [data]
    end.
Proof.
  intros packet c timeout h Hc Ht Hp. pose proof (sensible_len c Hc) as HL.
  assert (E1 : c_ubyte (zlen (command_of c)) = zlen (command_of c)) by (apply wrap_small; lia).
  assert (E2 : c_uint timeout = timeout) by (apply wrap_small; lia).
  assert (E3 : c_int packet = packet) by (apply int_small; lia).
  assert (L1 : forall x, length (h ++ [x]) = Datatypes.S (length h)) by (intros; rewrite app_length; cbn; lia).
  assert (L2 : forall x y, length ((h ++ [x]) ++ [y]) = Datatypes.S (Datatypes.S (length h)))
    by (intros; rewrite !app_length; cbn; lia).
  unfold sgio_create, alloc. rewrite E1, E2, E3.
  destruct c as [b n|b d]; cbn [command_of] in *.
  - destruct (Z.ltb_spec 0 n).
    + assert (E4 : c_uint n = n) by (cbn in Hc; apply wrap_small; lia). rewrite E4, L1, L2, <- !app_assoc.
      exists (-3). do 4 eexists. split; [reflexivity|]. cbn in Hc. repeat split; auto; lia.
    + rewrite L1, <- !app_assoc. exists (-1), 0, None. do 2 eexists. split; [reflexivity|]. repeat split; auto; lia.
  - pose proof (zlen_nonneg d).
    assert (E4 : c_uint (zlen d) = zlen d) by (cbn in Hc; apply wrap_small; lia). rewrite E4, L1, L2, <- !app_assoc.
    exists (-2). do 4 eexists. split; [reflexivity|]. cbn in Hc. repeat split; auto; lia.
Qed.

Lemma linux_abi_facts : forall little a ps, linux_abi little a ps ->
  little_endian a = little /\ places None (sgio_fields a) = ps /\
  Forall (fun f => kind_of (snd f) = Signed -> (1 <= size_of (snd f))%nat) (sgio_fields a) /\
  sizeof None (map snd (sgio_fields a)) = Z.to_nat (if (ptr_bytes a =? 8)%nat then 88 else 64).
Proof. intros little a ps [[Ha Hs]|[Ha Hs]]; subst; (split; [|split; [|split]]); auto; apply signed_ok; reflexivity. Qed.

Lemma linux_request : forall little a ps loc packet c timeout h h' r,
  linux_abi little a ps -> addresses a loc -> sensible c -> 0 <= timeout < 4294967296 ->
  -2147483648 <= packet < 2147483648 -> sgio_create packet c timeout h = (h', r) ->
  let m := sgio_raw a loc (hdr r) in
  let field := fun name => look little ps name m in
  let buffer := fun name content => points little ps m name loc h' content in
  (forall name, In name sg_io_hdr_unset -> field name = Some (CNum 0)) /\
  field "interface_id" = Some (CNum 83) /\ field "pack_id" = Some (CNum packet) /\
  field "timeout" = Some (CNum timeout) /\ field "iovec_count" = Some (CNum 0) /\ field "flags" = Some (CNum 1) /\
  field "cmd_len" = Some (CNum (zlen (command_of c))) /\ buffer "cmdp" (command_of c) /\
  field "mx_sb_len" = Some (CNum 255) /\ buffer "sbp" (zeros 255) /\
  match c with
  | ReadCmd _ n =>
    if 0 <? n then
      field "dxfer_direction" = Some (CNum (-3)) /\ field "dxfer_len" = Some (CNum n) /\
      buffer "dxferp" (zeros (Z.to_nat n))
    else
      field "dxfer_direction" = Some (CNum (-1)) /\ field "dxfer_len" = Some (CNum 0) /\
      field "dxferp" = Some (CNum 0)
  | WriteCmd _ data =>
    field "dxfer_direction" = Some (CNum (-2)) /\ field "dxfer_len" = Some (CNum (zlen data)) /\ buffer "dxferp" data
  end.
Proof.
  intros little a ps loc packet c timeout h h' r Ha Hl Hc Ht Hp E m field buffer.
  destruct (sgio_created packet c timeout h Hc Ht Hp) as (dir & len & p & h3 & d & E' & B1 & B2 & M).
  rewrite E' in E. injection E as E1 E2. subst h' r. pose proof (sensible_len c Hc).
  destruct (linux_abi_facts little a ps Ha) as (Q1 & Q2 & Q3 & _). subst little ps.
  cbv beta iota delta [sgio_raw hdr] in m.
  match goal with m := to_raw a None _ ?vs |- _ => set (v := vs) in m; assert (F : Forall2 fits (map snd (sgio_fields a)) v) end.
  { subst v. unfold sgio_values. cbn [interface_id dxfer_direction cmd_len mx_sb_len dxfer_len dxferp cmdp sbp hdr_timeout hdr_flags pack_id status host_status driver_status resid].
    cbn [map snd sgio_fields]. repeat (apply Forall2_cons; [fit|]). apply Forall2_nil. }
  pose proof (raw_found a None (sgio_fields a) v F) as X.
  assert (Y : forall b, In (CBytes b) v -> bytes_ok b).
  { subst v. intros b. cbn. intros I. repeat (destruct I as [I|I]; [discriminate I|]). contradiction. }
  specialize (X Y Q3). fold m in X.
  assert (P : forall name content x, attribute name (sgio_fields a) v = Some (CNum (loc x)) ->
     nth_error (h ++ zeros 255 :: command_of c :: h3) x = Some content -> buffer name content).
  { intros. exists x. split; auto. rewrite X. auto. }
  split; [intros name I; repeat (destruct I as [<-|I]; [unfold field; rewrite X; reflexivity|]); contradiction|].
  repeat split; try (unfold field; rewrite X; reflexivity).
  - apply (P _ _ (Datatypes.S (length h))); [reflexivity|apply nth_next].
  - apply (P _ _ (length h)); [reflexivity|apply nth_last].
  - destruct c as [b n|b dt]; [destruct (0 <? n)|].
    + destruct M as (M1 & M2 & M3 & M4). split; [unfold field; rewrite X; cbn; rewrite M1; reflexivity|].
      split; [unfold field; rewrite X; cbn; rewrite M2; reflexivity|].
      apply (P _ _ (Datatypes.S (Datatypes.S (length h)))); [cbn; rewrite M3; reflexivity|rewrite M4; apply nth_next2].
    + destruct M as (M1 & M2 & M3). split; [unfold field; rewrite X; cbn; rewrite M1; reflexivity|].
      split; [unfold field; rewrite X; cbn; rewrite M2; reflexivity|].
      unfold field; rewrite X; cbn; rewrite M3; reflexivity.
    + destruct M as (M1 & M2 & M3 & M4). split; [unfold field; rewrite X; cbn; rewrite M1; reflexivity|].
      split; [unfold field; rewrite X; cbn; rewrite M2; reflexivity|].
      apply (P _ _ (Datatypes.S (Datatypes.S (length h)))); [cbn; rewrite M3; reflexivity|rewrite M4; apply nth_next2].
Qed.

Ltac header := cbn [interface_id dxfer_direction cmd_len mx_sb_len dxfer_len dxferp cmdp sbp hdr_timeout hdr_flags pack_id
  status host_status driver_status resid uscsi_flags uscsi_status uscsi_timeout uscsi_cdb uscsi_bufaddr uscsi_buflen uscsi_cdblen
  uscsi_rqlen uscsi_rqstatus uscsi_rqbuf sc_version status_validity scsi_bus_status sc_flags devflags command_length einval_arg
  autosense_length timeout_value data_length sc_buffer autosense_buffer_ptr scsi_cdb ScsiStatus CdbLength SenseInfoLength DataIn
  DataTransferLength TimeOutValue DataBuffer Cdb spt_sense].

(** Answers. *)
Lemma answer_general : forall a fs n ps, places None fs = ps ->
  Forall (fun f => kind_of (snd f) = Signed -> (1 <= size_of (snd f))%nat) fs -> sizeof None (map snd fs) = Z.to_nat n -> 0 <= n ->
  forall b, bytes_ok b ->
  (zlen b < n -> from_string a None (map snd fs) b = Err EValue) /\
  (n <= zlen b -> exists vs, from_string a None (map snd fs) b = Ok vs /\
     forall name, attribute name fs vs = look (little_endian a) ps name b).
Proof.
  intros a fs n ps Hp Hs Hn H0 b Hb. subst ps. unfold zlen. split; intros.
  - apply parse_short. lia.
  - apply attribute_found; auto. lia.
Qed.

Lemma linux_answer : forall little a ps b, linux_abi little a ps -> bytes_ok b ->
  (zlen b < (if (ptr_bytes a =? 8)%nat then 88 else 64) -> sgio_from_string a b = Err EValue) /\
  ((if (ptr_bytes a =? 8)%nat then 88 else 64) <= zlen b ->
   exists vs, sgio_from_string a b = Ok vs /\ forall name, attribute name (sgio_fields a) vs = look little ps name b).
Proof.
  intros little a ps b Ha Hb. destruct (linux_abi_facts little a ps Ha) as (Q1 & Q2 & Q3 & Q4). subst little.
  apply answer_general; auto. destruct (ptr_bytes a =? 8)%nat; lia.
Qed.

(** Solaris. *)
Lemma scsicmd_created : forall c timeout h, sensible c -> -32768 <= timeout < 32768 ->
  exists fl len p h3 d,
    scsicmd_create c timeout h =
      (h ++ zeros 255 :: command_of c :: h3,
       Scsicmd (UscsiHdr fl 0 timeout (Some (Datatypes.S (length h))) p len (zlen (command_of c)) 255 0 (Some (length h))) d) /\
    0 <= len < 4294967296 /\ 0 <= fl < 4194304 /\
    match c with
    | ReadCmd _ n =>
      if 0 <? n then fl = 8 + 2 + 65536 + 2097152 /\ len = n /\ p = Some (Datatypes.S (Datatypes.S (length h))) /\ h3 = [zeros (Z.to_nat n)]
      else fl = 2 + 65536 + 2097152 /\ len = 0 /\ p = None
    | WriteCmd _ data => fl = 2 + 65536 + 2097152 /\ len = zlen data /\ p = Some (Datatypes.S (Datatypes.S (length h))) /\ h3 = [data]
    end.
Proof.
  intros c timeout h Hc Ht. pose proof (sensible_len c Hc) as HL.
  assert (E1 : c_ubyte (zlen (command_of c)) = zlen (command_of c)) by (apply wrap_small; lia).
  assert (E2 : c_short timeout = timeout) by (apply short_small; lia).
  assert (L1 : forall x, length (h ++ [x]) = Datatypes.S (length h)) by (intros; rewrite app_length; cbn; lia).
  assert (L2 : forall x y, length ((h ++ [x]) ++ [y]) = Datatypes.S (Datatypes.S (length h)))
    by (intros; rewrite !app_length; cbn; lia).
  unfold scsicmd_create, alloc. rewrite E1, E2.
  destruct c as [b n|b d]; cbn [command_of] in *.
  - destruct (Z.ltb_spec 0 n).
    + assert (E4 : c_ulonglong n = n) by (cbn in Hc; apply wrap_small; lia). rewrite E4, L1, L2, <- !app_assoc.
      exists (8 + 2 + 65536 + 2097152). do 4 eexists. split; [reflexivity|]. cbn in Hc. repeat split; auto; lia.
    + rewrite L1, <- !app_assoc. exists (2 + 65536 + 2097152), 0, None. do 2 eexists. split; [reflexivity|]. repeat split; auto; lia.
  - pose proof (zlen_nonneg d).
    assert (E4 : c_ulonglong (zlen d) = zlen d) by (cbn in Hc; apply wrap_small; lia). rewrite E4, L1, L2, <- !app_assoc.
    exists (2 + 65536 + 2097152). do 4 eexists. split; [reflexivity|]. cbn in Hc. repeat split; auto; lia.
Qed.

Lemma scsicmd_signed : forall a, Forall (fun f => kind_of (snd f) = Signed -> (1 <= size_of (snd f))%nat) (scsicmd_fields a).
Proof. intros. apply signed_ok. reflexivity. Qed.

Lemma solaris_request : forall little loc c timeout h h' r,
  addresses (lp64 little) loc -> sensible c -> -32768 <= timeout < 32768 -> scsicmd_create c timeout h = (h', r) ->
  let m := scsicmd_raw (lp64 little) loc (u_hdr r) in
  let field := fun name => look little uscsi_cmd_64 name m in
  let buffer := fun name content => points little uscsi_cmd_64 m name loc h' content in
  (forall name, In name uscsi_cmd_unset -> field name = Some (CNum 0)) /\
  field "uscsi_timeout" = Some (CNum timeout) /\ field "uscsi_cdblen" = Some (CNum (zlen (command_of c))) /\
  buffer "uscsi_cdb" (command_of c) /\ field "uscsi_rqlen" = Some (CNum 255) /\ buffer "uscsi_rqbuf" (zeros 255) /\
  match c with
  | ReadCmd _ n =>
    if 0 <? n then
      field "uscsi_flags" = Some (CNum (8 + 2 + 65536 + 2097152)) /\ field "uscsi_buflen" = Some (CNum n) /\
      buffer "uscsi_bufaddr" (zeros (Z.to_nat n))
    else
      field "uscsi_flags" = Some (CNum (2 + 65536 + 2097152)) /\ field "uscsi_buflen" = Some (CNum 0) /\
      field "uscsi_bufaddr" = Some (CNum 0)
  | WriteCmd _ data =>
    field "uscsi_flags" = Some (CNum (2 + 65536 + 2097152)) /\ field "uscsi_buflen" = Some (CNum (zlen data)) /\
    buffer "uscsi_bufaddr" data
  end.
Proof.
  intros little loc c timeout h h' r Hl Hc Ht E m field buffer.
  destruct (scsicmd_created c timeout h Hc Ht) as (dir & len & p & h3 & d & E' & B1 & B2 & M).
  rewrite E' in E. injection E as E1 E2. subst h' r. pose proof (sensible_len c Hc).
  set (a := lp64 little) in *.
  cbv beta iota delta [scsicmd_raw u_hdr] in m.
  match goal with m := to_raw a None _ ?vs |- _ => set (v := vs) in m; assert (F : Forall2 fits (map snd (scsicmd_fields a)) v) end.
  { subst v. unfold scsicmd_values. header. cbn [map snd scsicmd_fields].
    repeat (apply Forall2_cons; [fit|]). apply Forall2_nil. }
  pose proof (raw_found a None (scsicmd_fields a) v F) as X.
  assert (Y : forall b, In (CBytes b) v -> bytes_ok b).
  { subst v. intros b. cbn. intros I. repeat (destruct I as [I|I]; [discriminate I|]). contradiction. }
  specialize (X Y (scsicmd_signed a)). change (little_endian a) with little in X. change (places None (scsicmd_fields a)) with uscsi_cmd_64 in X.
  fold m in X.
  assert (P : forall name content x, attribute name (scsicmd_fields a) v = Some (CNum (loc x)) ->
     nth_error (h ++ zeros 255 :: command_of c :: h3) x = Some content -> buffer name content).
  { intros. exists x. split; auto. rewrite X. auto. }
  split; [intros name I; repeat (destruct I as [<-|I]; [unfold field; rewrite X; reflexivity|]); contradiction|].
  repeat split; try (unfold field; rewrite X; reflexivity).
  - apply (P _ _ (Datatypes.S (length h))); [reflexivity|apply nth_next].
  - apply (P _ _ (length h)); [reflexivity|apply nth_last].
  - destruct c as [b n|b dt]; [destruct (0 <? n)|].
    + destruct M as (M1 & M2 & M3 & M4). split; [unfold field; rewrite X; cbn; rewrite M1; reflexivity|].
      split; [unfold field; rewrite X; cbn; rewrite M2; reflexivity|].
      apply (P _ _ (Datatypes.S (Datatypes.S (length h)))); [cbn; rewrite M3; reflexivity|rewrite M4; apply nth_next2].
    + destruct M as (M1 & M2 & M3). split; [unfold field; rewrite X; cbn; rewrite M1; reflexivity|].
      split; [unfold field; rewrite X; cbn; rewrite M2; reflexivity|].
      unfold field; rewrite X; cbn; rewrite M3; reflexivity.
    + destruct M as (M1 & M2 & M3 & M4). split; [unfold field; rewrite X; cbn; rewrite M1; reflexivity|].
      split; [unfold field; rewrite X; cbn; rewrite M2; reflexivity|].
      apply (P _ _ (Datatypes.S (Datatypes.S (length h)))); [cbn; rewrite M3; reflexivity|rewrite M4; apply nth_next2].
Qed.

Lemma two_bytes : forall x y, byte_ok x -> byte_ok y ->
  let u := x + 256 * (y + 256 * 0) in
  let z := if u <? 256 ^ Z.of_nat 2 / 2 then u else u - 256 ^ Z.of_nat 2 in
  Z.land z 255 = x /\ Z.land (Z.shiftr z 8) 255 = y /\ Z.land (Z.shiftl z 8) 255 = 0.
Proof.
  intros x y Hx Hy u z. unfold byte_ok in *.
  assert (E : exists k, z = x + 256 * (y + 256 * k)).
  { subst z u. change (256 ^ Z.of_nat 2) with 65536. destruct (x + 256 * (y + 256 * 0) <? 65536 / 2); [exists 0|exists (-1)]; lia. }
  destruct E as [k E]. clearbody z. subst z. change 255 with (Z.ones 8). rewrite !Z.land_ones, Z.shiftr_div_pow2, Z.shiftl_mul_pow2 by lia.
  change (2 ^ 8) with 256. repeat split.
  - replace (x + 256 * (y + 256 * k)) with (x + (y + 256 * k) * 256) by lia. rewrite Z.mod_add by lia. apply Z.mod_small. lia.
  - replace (x + 256 * (y + 256 * k)) with (x + (y + 256 * k) * 256) by lia. rewrite Z.div_add by lia.
    rewrite Z.div_small by lia. replace (0 + (y + 256 * k)) with (y + k * 256) by lia. rewrite Z.mod_add by lia. apply Z.mod_small. lia.
  - apply Z.mod_mul. lia.
Qed.

Lemma solaris_answer : forall (little : bool) b, bytes_ok b ->
  (zlen b < 64 -> scsicmd_from_string (lp64 little) b = Err EValue) /\
  (64 <= zlen b ->
   exists vs z, scsicmd_from_string (lp64 little) b = Ok vs /\
     (forall name, attribute name (scsicmd_fields (lp64 little)) vs = look little uscsi_cmd_64 name b) /\
     attribute "uscsi_status" (scsicmd_fields (lp64 little)) vs = Some (CNum z) /\
     Z.land z 255 = nth (if little then 4 else 5) b 0 /\
     Z.land (Z.shiftr z 8) 255 = nth (if little then 5 else 4) b 0 /\
     Z.land (Z.shiftl z 8) 255 = 0).
Proof.
  intros little b Hb.
  destruct (answer_general (lp64 little) (scsicmd_fields (lp64 little)) 64 uscsi_cmd_64) with (b := b) as [A1 A2]; auto.
  { apply scsicmd_signed. }
  { lia. }
  split; auto. intros Hl. destruct (A2 Hl) as [vs [E A]]. change (little_endian (lp64 little)) with little in A.
  do 6 (destruct b as [|? b]; [unfold zlen in Hl; cbn in Hl; lia|]).
  unfold bytes_ok in Hb.
  repeat match goal with H : Forall _ (_ :: _) |- _ => inversion H; clear H; subst end.
  destruct little.
  - destruct (two_bytes z3 z4) as [T1 [T2 T3]]; auto. eexists vs, _. split; [exact E|]. split; [exact A|].
    split; [rewrite A; reflexivity|]. auto.
  - destruct (two_bytes z4 z3) as [T1 [T2 T3]]; auto. eexists vs, _. split; [exact E|]. split; [exact A|].
    split; [rewrite A; reflexivity|]. auto.
Qed.

(** AIX. *)
Lemma padded : forall n (b : bytes), (length b <= n)%nat -> firstn n (b ++ zeros n) = b ++ zeros (n - length b).
Proof.
  intros n b H. rewrite firstn_app. rewrite firstn_all2 by lia. f_equal. unfold zeros.
  assert (G : forall (x : Z) k j, (k <= j)%nat -> firstn k (repeat x j) = repeat x k).
  { intros x k. induction k; intros [|j] Hk; try lia; auto. cbn. f_equal. apply IHk. lia. }
  apply G. lia.
Qed.

Lemma passthru_created : forall c timeout h, sensible c -> 0 <= timeout < 4294967296 ->
  exists fl len p h3 d,
    passthru_create c timeout h =
      (h ++ zeros 255 :: command_of c :: h3,
       ScHdr 2 0 0 fl 1 (zlen (command_of c)) 0 255 timeout len p (Some (length h)) (firstn 64 (command_of c ++ zeros 64)), d) /\
    0 <= len < 4294967296 /\ 0 <= fl < 2 /\
    match c with
    | ReadCmd _ n =>
      if 0 <? n then fl = 1 /\ len = n /\ p = Some (Datatypes.S (Datatypes.S (length h))) /\ h3 = [zeros (Z.to_nat n)]
      else fl = 0 /\ len = 0 /\ p = None
    | WriteCmd _ data => fl = 0 /\ len = zlen data /\ p = Some (Datatypes.S (Datatypes.S (length h))) /\ h3 = [data]
    end.
Proof.
  intros c timeout h Hc Ht. pose proof (sensible_len c Hc) as HL.
  assert (E1 : c_ushort (zlen (command_of c)) = zlen (command_of c)) by (apply wrap_small; lia).
  assert (E2 : c_uint timeout = timeout) by (apply wrap_small; lia).
  assert (L2 : forall x y, length ((h ++ [x]) ++ [y]) = Datatypes.S (Datatypes.S (length h)))
    by (intros; rewrite !app_length; cbn; lia).
  unfold passthru_create, alloc. rewrite E1, E2.
  destruct c as [b n|b d]; cbn [command_of] in *.
  - destruct (Z.ltb_spec 0 n).
    + assert (E4 : c_ulonglong n = n) by (cbn in Hc; apply wrap_small; lia). rewrite E4, L2, <- !(app_assoc h).
      exists 1. do 4 eexists. split; [reflexivity|]. cbn in Hc. repeat split; auto; lia.
    + rewrite <- !(app_assoc h). exists 0, 0, None. do 2 eexists. split; [reflexivity|]. repeat split; auto; lia.
  - pose proof (zlen_nonneg d).
    assert (E4 : c_ulonglong (zlen d) = zlen d) by (cbn in Hc; apply wrap_small; lia). rewrite E4, L2, <- !(app_assoc h).
    exists 0. do 4 eexists. split; [reflexivity|]. cbn in Hc. repeat split; auto; lia.
Qed.

Lemma aix_abi_facts : forall little a ps, aix_abi little a ps ->
  little_endian a = little /\ places None (passthru_fields a) = ps /\
  Forall (fun f => kind_of (snd f) = Signed -> (1 <= size_of (snd f))%nat) (passthru_fields a) /\
  sizeof None (map snd (passthru_fields a)) = Z.to_nat (if (ptr_bytes a =? 8)%nat then 168 else 152).
Proof. intros little a ps [[Ha Hs]|[Ha Hs]]; subst; (split; [|split; [|split]]); auto; apply signed_ok; reflexivity. Qed.

Lemma aix_answer : forall little a ps b, aix_abi little a ps -> bytes_ok b ->
  (zlen b < (if (ptr_bytes a =? 8)%nat then 168 else 152) -> passthru_from_string a b = Err EValue) /\
  ((if (ptr_bytes a =? 8)%nat then 168 else 152) <= zlen b ->
   exists vs, passthru_from_string a b = Ok vs /\ forall name, attribute name (passthru_fields a) vs = look little ps name b).
Proof.
  intros little a ps b Ha Hb. destruct (aix_abi_facts little a ps Ha) as (Q1 & Q2 & Q3 & Q4). subst little.
  apply answer_general; auto. destruct (ptr_bytes a =? 8)%nat; lia.
Qed.

Lemma zeros_ok : forall n, bytes_ok (zeros n).
Proof. intros. apply Forall_forall. intros x Hx. apply repeat_spec in Hx. subst. unfold byte_ok. lia. Qed.

Lemma aix_request : forall little a ps loc c timeout h h' q d,
  aix_abi little a ps -> addresses a loc -> sensible c -> zlen (command_of c) <= 64 -> 0 <= timeout < 4294967296 ->
  passthru_create c timeout h = (h', q, d) ->
  let m := passthru_raw a loc q in
  let field := fun name => look little ps name m in
  let buffer := fun name content => points little ps m name loc h' content in
  (forall name, In name sc_passthru_unset -> field name = Some (CNum 0)) /\
  field "version" = Some (CNum 2) /\ field "devflags" = Some (CNum 1) /\
  field "command_length" = Some (CNum (zlen (command_of c))) /\
  field "scsi_cdb" = Some (CBytes (command_of c ++ zeros (64 - length (command_of c)))) /\
  field "variable_cdb_length" = Some (CNum 0) /\
  field "timeout_value" = Some (CNum timeout) /\
  field "autosense_length" = Some (CNum 255) /\ buffer "autosense_buffer_ptr" (zeros 255) /\
  match c with
  | ReadCmd _ n =>
    if 0 <? n then
      field "flags" = Some (CNum 1) /\ field "data_length" = Some (CNum n) /\ buffer "buffer" (zeros (Z.to_nat n))
    else
      field "flags" = Some (CNum 0) /\ field "data_length" = Some (CNum 0) /\ field "buffer" = Some (CNum 0)
  | WriteCmd _ data =>
    field "flags" = Some (CNum 0) /\ field "data_length" = Some (CNum (zlen data)) /\ buffer "buffer" data
  end.
Proof.
  intros little a ps loc c timeout h h' q d0 Ha Hl Hc H64 Ht E m field buffer.
  destruct (passthru_created c timeout h Hc Ht) as (fl & len & p & h3 & d & E' & B1 & B2 & M).
  rewrite padded in E' by (unfold zlen in H64; lia).
  rewrite E' in E. injection E as E1 E2. subst h' q. pose proof (sensible_len c Hc).
  pose proof (sensible_ok c Hc) as Hok.
  assert (LC : length (command_of c ++ zeros (64 - length (command_of c))) = 64%nat)
    by (rewrite app_length, zeros_length; unfold zlen in H64; lia).
  set (cdb := command_of c ++ zeros (64 - length (command_of c))) in *.
  assert (OC : bytes_ok cdb) by (apply Forall_app; split; [auto|apply zeros_ok]).
  assert (AL : longlong_align a = 8%nat) by (destruct Ha as [[Ha _]|[Ha _]]; rewrite Ha; reflexivity).
  destruct (aix_abi_facts little a ps Ha) as (Q1 & Q2 & Q3 & _). subst little ps.
  cbv beta iota delta [passthru_raw] in m.
  match goal with m := to_raw a None _ ?vs |- _ => set (v := vs) in m; assert (F : Forall2 fits (map snd (passthru_fields a)) v) end.
  { subst v. unfold passthru_values. header. cbn [map snd passthru_fields].
    repeat (apply Forall2_cons; [fit; auto|]). apply Forall2_nil. }
  pose proof (raw_found a None (passthru_fields a) v F) as X.
  assert (Y : forall b, In (CBytes b) v -> bytes_ok b).
  { subst v. intros b. unfold passthru_values. header. cbn [In]. intros I.
    repeat (destruct I as [I|I]; [try discriminate I; injection I as I; subst b; auto|]). contradiction. }
  specialize (X Y Q3). fold m in X.
  assert (P : forall name content x, attribute name (passthru_fields a) v = Some (CNum (loc x)) ->
     nth_error (h ++ zeros 255 :: command_of c :: h3) x = Some content -> buffer name content).
  { intros. exists x. split; auto. rewrite X. auto. }
  split; [intros name I; repeat (destruct I as [<-|I]; [unfold field; rewrite X; reflexivity|]); contradiction|].
  repeat split; try (unfold field; rewrite X; reflexivity).
  - apply (P _ _ (length h)); [reflexivity|apply nth_last].
  - destruct c as [b n|b dt]; [destruct (0 <? n)|].
    + destruct M as (M1 & M2 & M3 & M4). split; [unfold field; rewrite X; cbn; rewrite M1; reflexivity|].
      split; [unfold field; rewrite X; cbn; rewrite M2; reflexivity|].
      apply (P _ _ (Datatypes.S (Datatypes.S (length h)))); [cbn; rewrite M3; reflexivity|rewrite M4; apply nth_next2].
    + destruct M as (M1 & M2 & M3). split; [unfold field; rewrite X; cbn; rewrite M1; reflexivity|].
      split; [unfold field; rewrite X; cbn; rewrite M2; reflexivity|].
      unfold field; rewrite X; cbn; rewrite M3; reflexivity.
    + destruct M as (M1 & M2 & M3 & M4). split; [unfold field; rewrite X; cbn; rewrite M1; reflexivity|].
      split; [unfold field; rewrite X; cbn; rewrite M2; reflexivity|].
      apply (P _ _ (Datatypes.S (Datatypes.S (length h)))); [cbn; rewrite M3; reflexivity|rewrite M4; apply nth_next2].
Qed.

(** Windows. *)
Lemma pass_through_places : forall a ps size, windows_abi a ps size ->
  (forall p, In p ps -> member (place_name p) (places (Some 1%nat) (spt_fields a)) = Some p) /\
  member "sense_buffer" (places (Some 1%nat) (spt_fields a)) = Some (Place "sense_buffer" (Z.to_nat size) 255 Raw) /\
  sizeof (Some 1%nat) (map snd (spt_fields a)) = (Z.to_nat size + 255)%nat.
Proof.
  intros a ps size [(Ha & Hs & Hn)|(Ha & Hs & Hn)]; subst; (split; [|split; reflexivity]);
    intros p I; repeat (destruct I as [I|I]; [subst p; reflexivity|]); contradiction.
Qed.

Lemma spt_created : forall c h h' q d, sensible c -> spt_create c h = Ok (h', q, d) ->
  zlen (command_of c) <= 16 /\
  exists dir len p,
    q = SptHdr 0 (zlen (command_of c)) 255 dir len 10 p (command_of c ++ zeros (16 - length (command_of c))) (zeros 255) /\
    0 <= len < 4294967296 /\ 0 <= dir < 3 /\
    match c with
    | ReadCmd _ n =>
      if 0 <? n then dir = 1 /\ len = n /\ p = Some (length h) /\ h' = h ++ [zeros (Z.to_nat n)]
      else dir = 2 /\ len = 0 /\ p = None
    | WriteCmd _ data =>
      if 0 <? zlen data then dir = 0 /\ len = zlen data /\ p = Some (length h) /\ h' = h ++ [data]
      else dir = 2 /\ len = 0 /\ p = None
    end.
Proof.
  intros c h h' q d Hc E. pose proof (sensible_len c Hc) as HL. unfold spt_create in E.
  destruct (16 <? length (command_of c))%nat eqn:L; [discriminate E|]. apply Nat.ltb_ge in L.
  split; [unfold zlen; lia|].
  assert (E1 : c_ubyte (zlen (command_of c)) = zlen (command_of c)) by (apply wrap_small; lia).
  rewrite E1, padded in E by auto. unfold alloc in E.
  destruct c as [b n|b dt]; cbn [command_of] in *.
  - destruct (Z.ltb_spec 0 n); injection E as F1 F2 F3; subst.
    + assert (E4 : c_uint n = n) by (cbn in Hc; apply wrap_small; lia). rewrite E4.
      exists 1. do 2 eexists. split; [reflexivity|]. cbn in Hc. repeat split; auto; lia.
    + exists 2, 0, None. split; [reflexivity|]. repeat split; auto; lia.
  - destruct (Z.ltb_spec 0 (zlen dt)); injection E as F1 F2 F3; subst.
    + assert (E4 : c_uint (zlen dt) = zlen dt) by (cbn in Hc; apply wrap_small; lia). rewrite E4.
      exists 0. do 2 eexists. split; [reflexivity|]. cbn in Hc. repeat split; auto; lia.
    + exists 2, 0, None. split; [reflexivity|]. repeat split; auto; lia.
Qed.

Lemma cbytes_eq : forall x y, Some (CBytes x) = Some (CBytes y) -> x = y.
Proof. congruence. Qed.

Lemma look_member : forall little ps qs name m p, member name ps = Some p -> member name qs = Some p ->
  look little ps name m = look little qs name m.
Proof. intros. unfold look. rewrite H, H0. reflexivity. Qed.

Lemma windows_request : forall a ps size loc c h h' q d,
  windows_abi a ps size -> addresses a loc -> sensible c -> spt_create c h = Ok (h', q, d) ->
  let m := spt_raw a loc q in
  let field := fun name => look true ps name m in
  let buffer := fun name content => points true ps m name loc h' content in
  (forall name, In name pass_through_unset -> field name = Some (CNum 0)) /\
  zlen (command_of c) <= 16 /\ zlen m = size + 255 /\
  field "Length" = Some (CNum size) /\ field "PathId" = Some (CNum 0) /\ field "TargetId" = Some (CNum 0) /\
  field "Lun" = Some (CNum 0) /\ field "TimeOutValue" = Some (CNum 10) /\
  field "CdbLength" = Some (CNum (zlen (command_of c))) /\
  field "Cdb" = Some (CBytes (command_of c ++ zeros (16 - length (command_of c)))) /\
  field "SenseInfoLength" = Some (CNum 255) /\
  (exists offset, field "SenseInfoOffset" = Some (CNum offset) /\ skipn (Z.to_nat offset) m = spt_sense q) /\
  match c with
  | ReadCmd _ n =>
    if 0 <? n then
      field "DataIn" = Some (CNum 1) /\ field "DataTransferLength" = Some (CNum n) /\
      buffer "DataBuffer" (zeros (Z.to_nat n))
    else
      field "DataIn" = Some (CNum 2) /\ field "DataTransferLength" = Some (CNum 0) /\
      field "DataBuffer" = Some (CNum 0)
  | WriteCmd _ data =>
    if 0 <? zlen data then
      field "DataIn" = Some (CNum 0) /\ field "DataTransferLength" = Some (CNum (zlen data)) /\ buffer "DataBuffer" data
    else
      field "DataIn" = Some (CNum 2) /\ field "DataTransferLength" = Some (CNum 0) /\ field "DataBuffer" = Some (CNum 0)
  end.
Proof.
  intros a ps size loc c h h' q d Ha Hl Hc E m field buffer.
  destruct (spt_created c h h' q d Hc E) as (H16 & dir & len & p & E' & B1 & B2 & M). subst q.
  pose proof (sensible_len c Hc). pose proof (sensible_ok c Hc) as Hok.
  assert (LC : length (command_of c ++ zeros (16 - length (command_of c))) = 16%nat)
    by (rewrite app_length, zeros_length; unfold zlen in H16; lia).
  set (cdb := command_of c ++ zeros (16 - length (command_of c))) in *.
  assert (OC : bytes_ok cdb) by (apply Forall_app; split; [auto|apply zeros_ok]). clearbody cdb.
  assert (SZ : Z.of_nat (sizeof (Some 1%nat) (map snd (spt_fields a))) - Z.of_nat SENSE_SIZE = size /\
     Z.of_nat (sizeof (Some 1%nat) (map snd (spt_fields a))) = size + 255)
    by (destruct Ha as [(-> & _ & ->)|(-> & _ & ->)]; split; reflexivity).
  destruct SZ as [SZ SZ'].
  cbv beta iota delta [spt_raw] in m.
  match goal with m := to_raw a _ _ ?vs |- _ => set (v := vs) in m; assert (F : Forall2 fits (map snd (spt_fields a)) v) end.
  { subst v. unfold spt_values. rewrite SZ. header.
    destruct Ha as [(-> & _ & ->)|(-> & _ & ->)]; cbn [map snd spt_fields ptr_bytes llp64 win32 Nat.eqb];
    repeat (apply Forall2_cons; [fit; auto; try apply zeros_length|]); apply Forall2_nil. }
  assert (S : Forall (fun f => kind_of (snd f) = Signed -> (1 <= size_of (snd f))%nat) (spt_fields a)).
  { destruct Ha as [(-> & _ & ->)|(-> & _ & ->)]; apply signed_ok; reflexivity. }
  pose proof (raw_found a (Some 1%nat) (spt_fields a) v F) as X.
  assert (Y : forall b, In (CBytes b) v -> bytes_ok b).
  { subst v. intros b. unfold spt_values. header. cbn [In]. intros I.
    repeat (destruct I as [I|I]; [try discriminate I; injection I as I; subst b; auto; apply zeros_ok|]). contradiction. }
  specialize (X Y S). fold m in X.
  assert (LM : length m = (Z.to_nat size + 255)%nat).
  { subst m. rewrite to_raw_length by (apply fits_length; auto). assert (0 <= size) by (destruct Ha as [(_ & _ & ->)|(_ & _ & ->)]; lia). lia. }
  assert (LE : little_endian a = true) by (destruct Ha as [(-> & _)|(-> & _)]; reflexivity).
  rewrite LE in X.
  assert (A : forall name p0, In p0 ps -> place_name p0 = name -> member name ps = Some p0 -> field name = attribute name (spt_fields a) v).
  { intros name p0 I N K. rewrite <- X. unfold field. subst name.
    destruct (pass_through_places a ps size Ha) as [W _]. apply (look_member true _ _ _ m p0); auto. }
  assert (VV : forall name, attribute name (spt_fields a) v = attribute name (spt_fields a)
      [CNum size; CNum 0; CNum 0; CNum 0; CNum 0; CNum (zlen (command_of c)); CNum 255; CNum dir; CBytes (zeros 3); CNum len; CNum 10;
       CBytes (zeros (if (ptr_bytes a =? 8)%nat then 4 else 0)); pointer loc p; CNum size; CBytes cdb;
       CBytes (zeros (if (ptr_bytes a =? 8)%nat then 4 else 0)); CBytes (zeros 255)]).
  { intros. subst v. unfold spt_values. rewrite SZ. header. f_equal. f_equal. f_equal. apply wrap_small.
    destruct Ha as [(_ & _ & ->)|(_ & _ & ->)]; lia. }
  assert (G : forall name, member name ps <> None -> field name = attribute name (spt_fields a)
      [CNum size; CNum 0; CNum 0; CNum 0; CNum 0; CNum (zlen (command_of c)); CNum 255; CNum dir; CBytes (zeros 3); CNum len; CNum 10;
       CBytes (zeros (if (ptr_bytes a =? 8)%nat then 4 else 0)); pointer loc p; CNum size; CBytes cdb;
       CBytes (zeros (if (ptr_bytes a =? 8)%nat then 4 else 0)); CBytes (zeros 255)]).
  { intros name N. rewrite <- VV. destruct (member name ps) as [p0|] eqn:K; [|contradiction].
    assert (I : In p0 ps /\ place_name p0 = name).
    { clear - K. induction ps as [|x r IH]; cbn in K; [discriminate|]. destruct (place_name x =? name)%string eqn:Q.
      - injection K as ->. apply String.eqb_eq in Q. split; [left|]; auto.
      - destruct (IH K). split; [right|]; auto. }
    apply (A name p0); tauto. }
  clear A VV.
  assert (D : forall name, member name pass_through_64 <> None -> member name pass_through_32 <> None -> member name ps <> None)
    by (intros; destruct Ha as [(_ & -> & _)|(_ & -> & _)]; auto).
  assert (SB : look true (places (Some 1%nat) (spt_fields a)) "sense_buffer" m = Some (CBytes (zeros 255))).
  { rewrite X. reflexivity. }
  split; [intros name I; repeat (destruct I as [<-|I]; [rewrite G by (apply D; discriminate); reflexivity|]); contradiction|].
  split; auto. split; [unfold zlen; rewrite LM; assert (0 <= size) by (destruct Ha as [(_ & _ & ->)|(_ & _ & ->)]; lia); lia|].
  do 8 (split; [rewrite G by (apply D; discriminate); reflexivity|]).
  split.
  { exists size. split; [rewrite G by (apply D; discriminate); reflexivity|].
    destruct (pass_through_places a ps size Ha) as [_ [W _]]. unfold look in SB. rewrite W in SB.
    unfold found in SB. cbn [place_size place_at place_kind] in SB. apply cbytes_eq in SB. cbn [spt_sense].
    transitivity (firstn 255 (skipn (Z.to_nat size) m)); [|exact SB]. symmetry. apply firstn_all2. rewrite skipn_length. lia. }
  assert (P : forall name content x, member name ps <> None -> attribute name (spt_fields a)
      [CNum size; CNum 0; CNum 0; CNum 0; CNum 0; CNum (zlen (command_of c)); CNum 255; CNum dir; CBytes (zeros 3); CNum len; CNum 10;
       CBytes (zeros (if (ptr_bytes a =? 8)%nat then 4 else 0)); pointer loc p; CNum size; CBytes cdb;
       CBytes (zeros (if (ptr_bytes a =? 8)%nat then 4 else 0)); CBytes (zeros 255)] = Some (CNum (loc x)) ->
     nth_error h' x = Some content -> buffer name content).
  { intros name content x N Q R. exists x. split; auto. fold (field name). rewrite G; auto. }
  destruct c as [b n|b dt]; [destruct (0 <? n)|destruct (0 <? zlen dt)].
  - destruct M as (M1 & M2 & M3 & M4). split; [rewrite G by (apply D; discriminate); cbn; rewrite M1; reflexivity|].
    split; [rewrite G by (apply D; discriminate); cbn; rewrite M2; reflexivity|].
    apply (P _ _ (length h)); [apply D; discriminate|cbn; rewrite M3; reflexivity|rewrite M4; apply nth_last].
  - destruct M as (M1 & M2 & M3). split; [rewrite G by (apply D; discriminate); cbn; rewrite M1; reflexivity|].
    split; rewrite G by (apply D; discriminate); cbn; rewrite ?M2, ?M3; reflexivity.
  - destruct M as (M1 & M2 & M3 & M4). split; [rewrite G by (apply D; discriminate); cbn; rewrite M1; reflexivity|].
    split; [rewrite G by (apply D; discriminate); cbn; rewrite M2; reflexivity|].
    apply (P _ _ (length h)); [apply D; discriminate|cbn; rewrite M3; reflexivity|rewrite M4; apply nth_last].
  - destruct M as (M1 & M2 & M3). split; [rewrite G by (apply D; discriminate); cbn; rewrite M1; reflexivity|].
    split; rewrite G by (apply D; discriminate); cbn; rewrite ?M2, ?M3; reflexivity.
Qed.

Lemma overlapped_event : forall a ps event,
  (a = llp64 /\ ps = overlapped_64) \/ (a = win32 /\ ps = overlapped_32) -> 0 <= event < 256 ^ Z.of_nat (ptr_bytes a) ->
  places None (overlapped_fields a) = ps /\
  look true ps "hEvent" (overlapped_raw a event) = Some (CNum event) /\
  look true ps "Internal" (overlapped_raw a event) = Some (CNum 0) /\
  look true ps "Offset" (overlapped_raw a event) = Some (CNum 0) /\
  look true ps "OffsetHigh" (overlapped_raw a event) = Some (CNum 0).
Proof.
  intros a ps event Ha He.
  assert (Q2 : places None (overlapped_fields a) = ps) by (destruct Ha as [[-> ->]|[-> ->]]; reflexivity).
  assert (LE : little_endian a = true) by (destruct Ha as [[-> _]|[-> _]]; reflexivity).
  set (v := [CNum 0; CNum 0; CNum 0; CNum 0; CNum event]).
  assert (F : Forall2 fits (map snd (overlapped_fields a)) v).
  { destruct Ha as [[-> _]|[-> _]]; repeat (apply Forall2_cons; [cbn in *; lia|]); apply Forall2_nil. }
  assert (S : Forall (fun f => kind_of (snd f) = Signed -> (1 <= size_of (snd f))%nat) (overlapped_fields a)).
  { apply signed_ok. reflexivity. }
  assert (Y : forall b, In (CBytes b) v -> bytes_ok b).
  { subst v. intros b. cbn. intros I. repeat (destruct I as [I|I]; [discriminate I|]). contradiction. }
  pose proof (raw_found a None (overlapped_fields a) v F Y S) as X. rewrite LE, Q2 in X.
  assert (L : length (to_raw a None (map snd (overlapped_fields a)) v) = sizeof None (map snd (overlapped_fields a)))
    by (apply to_raw_length; reflexivity).
  assert (K : forall name, member name overlapped_64 <> None -> look true ps name (overlapped_raw a event) = attribute name (overlapped_fields a) v).
  { intros name N. rewrite <- X. unfold overlapped_raw. fold v. unfold look. destruct (member name ps) as [p0|] eqn:M; auto. f_equal.
    assert (I : In p0 ps).
    { clear - M. induction ps as [|x r IH]; cbn in M; [discriminate|]. destruct (place_name x =? name)%string.
      - injection M as ->. left; auto.
      - right; auto. }
    assert (B : (place_at p0 + place_size p0 <= length (to_raw a None (map snd (overlapped_fields a)) v))%nat).
    { rewrite L. destruct Ha as [[-> ->]|[-> ->]]; repeat (destruct I as [I|I]; [subst p0; cbn; lia|]); contradiction. }
    unfold found. rewrite skipn_app, firstn_app, skipn_length.
    replace (place_size p0 - (length (to_raw a None (map snd (overlapped_fields a)) v) - place_at p0))%nat with 0%nat by lia.
    rewrite firstn_O, app_nil_r. reflexivity. }
  split; auto. repeat split; rewrite K by discriminate; reflexivity.
Qed.
