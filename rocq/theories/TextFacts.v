(** Lemmas about error texts. *)
From Coq Require Import String Ascii ZArith List Bool Lia.
From Verif Require Import Base OsCommon OsLinux OsSolaris OsAix OsWin32 ErrorText SpecText.
Import ListNotations.
Local Open Scope string_scope.
Local Open Scope Z_scope.

Fixpoint lacks (c : ascii) (s : string) : bool :=
  match s with String a r => negb (Ascii.eqb a c) && lacks c r | EmptyString => true end.

Lemma after_skip : forall c l s t, lacks c s = true ->
  after (String c l) (s ++ t) = after (String c l) t.
Proof.
  induction s as [|a s IH]; intros t H; [reflexivity|].
  cbn [lacks] in H. apply andb_prop in H; destruct H as [Ha H].
  cbn [append after starts].
  destruct (ascii_dec c a) as [->|_].
  - rewrite Ascii.eqb_refl in Ha; discriminate.
  - cbn. apply IH, H.
Qed.

Lemma append_assoc : forall a b c : string, (a ++ b) ++ c = a ++ b ++ c.
Proof. induction a; intros; cbn; [reflexivity|]. now rewrite IHa. Qed.

Lemma app_nil_str : forall s : string, s ++ "" = s.
Proof. induction s; cbn; congruence. Qed.

Lemma digit_char_value : forall d, 0 <= d < 16 -> digit_value (digit_char d) = Some d.
Proof.
  intros d H.
  assert (d = 0 \/ d = 1 \/ d = 2 \/ d = 3 \/ d = 4 \/ d = 5 \/ d = 6 \/ d = 7 \/ d = 8 \/ d = 9 \/
          d = 10 \/ d = 11 \/ d = 12 \/ d = 13 \/ d = 14 \/ d = 15) as E by lia.
  repeat (destruct E as [->|E]; [reflexivity|]). subst d; reflexivity.
Qed.

(** characters that can stand in a printed number *)
Definition is_digit (c : ascii) : bool := match digit_value c with Some _ => true | None => false end.
Fixpoint all_digits (s : string) : bool :=
  match s with String a r => is_digit a && all_digits r | EmptyString => true end.

Lemma digits_from_all : forall fuel base v acc, 1 < base <= 16 -> 0 <= v ->
  all_digits acc = true -> all_digits (digits_from fuel base v acc) = true.
Proof.
  induction fuel as [|k IH]; intros base v acc Hb Hv Ha; [exact Ha|].
  cbn [digits_from].
  assert (0 <= v mod base < base) by (apply Z.mod_pos_bound; lia).
  assert (all_digits (String (digit_char (v mod base)) acc) = true) as E.
  { cbn [all_digits]. rewrite Ha. unfold is_digit. rewrite digit_char_value by lia. reflexivity. }
  destruct (v <? base); [exact E|]. apply IH; [lia| |exact E]. apply Z.div_pos; lia.
Qed.

(** what a number followed by something else reads as *)
Definition stops (base : Z) (t : string) : Prop :=
  match t with String c _ => match digit_value c with Some d => base <= d | None => True end | EmptyString => True end.

Lemma number_from_stops : forall base v t, stops base t -> number_from base v t = v.
Proof.
  intros base v [|c t] H; [reflexivity|]. cbn in *. destruct (digit_value c); [|reflexivity].
  destruct (Z.ltb_spec z base); [lia|reflexivity].
Qed.

Lemma number_digits : forall fuel base v acc w t, 1 < base <= 16 -> 0 <= v < Z.of_nat fuel -> 0 <= w ->
  number_from base 0 (digits_from fuel base v acc ++ t) = number_from base v (acc ++ t).
Proof.
  induction fuel as [|k IH]; intros base v acc w t Hb Hv Hw; [lia|].
  cbn [digits_from].
  assert (0 <= v mod base < base) by (apply Z.mod_pos_bound; lia).
  assert (v = base * (v / base) + v mod base) as E by (apply Z.div_mod; lia).
  destruct (Z.ltb_spec v base).
  - rewrite Z.mod_small by lia. cbn [append number_from].
    rewrite digit_char_value by lia. destruct (Z.ltb_spec v base); [|lia].
    f_equal; lia.
  - rewrite (IH base (v / base) _ 0 t); [| lia | | lia].
    + cbn [append number_from]. rewrite digit_char_value by lia.
      destruct (Z.ltb_spec (v mod base) base); [|lia]. rewrite <- E. reflexivity.
    + split; [apply Z.div_pos; lia|].
      assert (v / base < v) by (apply Z.div_lt; lia). lia.
Qed.

Lemma number_of_digits : forall base v t, 1 < base <= 16 -> 0 <= v -> stops base t ->
  number_from base 0 (digits base v ++ t) = v.
Proof.
  intros base v t Hb Hv Ht. unfold digits.
  rewrite (number_digits _ base v "" 0 t); [| lia | rewrite Nat2Z.inj_succ, Z2Nat.id by lia; lia | lia].
  cbn [append]. apply number_from_stops, Ht.
Qed.

Lemma number_of_hex02 : forall v t, 0 <= v -> stops 16 t -> number_from 16 0 (hex02 v ++ t) = v.
Proof.
  intros v t Hv Ht. unfold hex02.
  destruct (String.length (digits 16 v) <? 2)%nat.
  - rewrite append_assoc. change (number_from 16 0 ("0" ++ digits 16 v ++ t)) with (number_from 16 0 (digits 16 v ++ t)).
    apply number_of_digits; [lia|exact Hv|exact Ht].
  - apply number_of_digits; [lia|exact Hv|exact Ht].
Qed.

Lemma hex02_all : forall v, 0 <= v -> all_digits (hex02 v) = true.
Proof.
  intros v Hv. unfold hex02. assert (all_digits (digits 16 v) = true) by (apply digits_from_all; [lia|exact Hv|reflexivity]).
  destruct (_ <? _)%nat; [exact H|exact H].
Qed.

Lemma all_digits_lacks : forall c s, is_digit c = false -> all_digits s = true -> lacks c s = true.
Proof.
  induction s as [|a s IH]; intros Hc H; [reflexivity|].
  cbn in H. apply andb_prop in H; destruct H as [Ha H].
  cbn [lacks]. rewrite IH by assumption. destruct (Ascii.eqb_spec a c) as [->|_]; [congruence|reflexivity].
Qed.

(** names of the tables *)
Definition table_lacks (c : ascii) (tb : list (string * Z)) : bool := forallb (fun p => lacks c (fst p)) tb.
Lemma code_string_lacks : forall c code tb, table_lacks c tb = true -> lacks c (code_string code tb) = true.
Proof.
  induction tb as [|[k v] tb IH]; intros H; [reflexivity|].
  cbn in H. apply andb_prop in H; destruct H as [Hk H]. cbn. destruct (v =? code); auto.
Qed.

Lemma skip_pretty : forall c l code tb t, 0 <= code -> table_lacks c tb = true -> is_digit c = false ->
  Ascii.eqb c " " = false -> Ascii.eqb c "x" = false ->
  after (String c l) (prettify_status code tb ++ t) = after (String c l) t.
Proof.
  intros c l code tb t Hv Ht Hd Hb Hx. unfold prettify_status.
  rewrite !append_assoc. rewrite after_skip by (apply code_string_lacks, Ht).
  change (after (String c l) (" 0x" ++ hex02 code ++ t)) with (after (String c l) (" 0x" ++ (hex02 code ++ t))).
  rewrite after_skip.
  - apply after_skip, all_digits_lacks; [exact Hd|apply hex02_all, Hv].
  - assert (Ascii.eqb c "0" = false) as H0.
    { destruct (Ascii.eqb_spec c "0") as [->|_]; [discriminate Hd|reflexivity]. }
    cbn [lacks]. rewrite (Ascii.eqb_sym " " c), (Ascii.eqb_sym "0" c), (Ascii.eqb_sym "x" c), Hb, H0, Hx. reflexivity.
Qed.

Lemma hex_of_pretty : forall code tb t, 0 <= code -> table_lacks "0" tb = true -> stops 16 t ->
  match after "0x" (prettify_status code tb ++ t) with Some n => Some (number_from 16 0 n) | None => None end
  = Some code.
Proof.
  intros code tb t Hv Ht Hs. unfold prettify_status. rewrite !append_assoc.
  rewrite after_skip by (apply code_string_lacks, Ht).
  change (after "0x" (" 0x" ++ hex02 code ++ t)) with (Some (hex02 code ++ t)).
  cbv beta iota. f_equal. apply number_of_hex02; assumption.
Qed.

Lemma word_app : forall s t, lacks " " s = true -> word (s ++ String " " t) = s.
Proof.
  induction s as [|a s IH]; intros t H; [reflexivity|].
  cbn [lacks] in H. apply andb_prop in H; destruct H as [Ha H].
  cbn [append word]. destruct (Ascii.eqb a " "); [discriminate|]. now rewrite IH.
Qed.
Lemma word_of_pretty : forall code tb t, table_lacks " " tb = true ->
  word (prettify_status code tb ++ t) = code_string code tb.
Proof.
  intros. unfold prettify_status. rewrite !append_assoc.
  apply (word_app _ ("0x" ++ hex02 code ++ t)). apply code_string_lacks; assumption.
Qed.

Lemma scsi_names : forall code, code_string code SCSI_STATUS_CODES = sam_status code.
Proof.
  intros. unfold sam_status. cbn [code_string SCSI_STATUS_CODES].
  rewrite !(Z.eqb_sym code). reflexivity.
Qed.
Lemma host_names : forall code, code_string code HOST_STATUS_CODES = linux_host code.
Proof.
  intros. unfold linux_host. cbn [code_string HOST_STATUS_CODES].
  rewrite !(Z.eqb_sym code). reflexivity.
Qed.
Lemma driver_names : forall code, 0 <= code < 16 -> code <> 8 -> code_string code DRIVER_STATUS_CODES = linux_driver code.
Proof.
  intros code H N.
  assert (code = 0 \/ code = 1 \/ code = 2 \/ code = 3 \/ code = 4 \/ code = 5 \/ code = 6 \/ code = 7 \/
          code = 9 \/ code = 10 \/ code = 11 \/ code = 12 \/ code = 13 \/ code = 14 \/ code = 15) as E by lia.
  repeat (destruct E as [->|E]; [reflexivity|]). subst code; reflexivity.
Qed.

(** labels *)
Definition three (what : string) (s d h : Z) : string :=
  what ++ prettify_status s SCSI_STATUS_CODES ++ "(driver status: " ++ prettify_status d DRIVER_STATUS_CODES
  ++ ", host status: " ++ prettify_status h HOST_STATUS_CODES ++ ")".

Lemma after_host_const : forall r, after "host status: " ("(driver status: " ++ r) = after "host status: " r.
Proof. intros; reflexivity. Qed.

Lemma three_reads : forall what s d h, 0 <= s -> 0 <= d -> 0 <= h ->
  what = "SCSI response status is not zero: " \/ what = "SCSI host status is not zero: " ->
  hex_after "zero: " (three what s d h) = Some s /\
  name_after "zero: " (three what s d h) = Some (code_string s SCSI_STATUS_CODES) /\
  hex_after "(driver status: " (three what s d h) = Some d /\
  name_after "(driver status: " (three what s d h) = Some (code_string d DRIVER_STATUS_CODES) /\
  hex_after "host status: " (three what s d h) = Some h /\
  name_after "host status: " (three what s d h) = Some (code_string h HOST_STATUS_CODES).
Proof.
  intros what s d h Hs Hd Hh Hw.
  set (r3 := prettify_status h HOST_STATUS_CODES ++ ")").
  set (r2 := prettify_status d DRIVER_STATUS_CODES ++ ", host status: " ++ r3).
  set (r1 := prettify_status s SCSI_STATUS_CODES ++ "(driver status: " ++ r2).
  assert (after "zero: " (three what s d h) = Some r1) as E1.
  { unfold three. fold r3 r2 r1. destruct Hw as [-> | ->]; reflexivity. }
  assert (after "(driver status: " (three what s d h) = Some r2) as E2.
  { unfold three. fold r3 r2 r1. transitivity (after "(driver status: " r1); [destruct Hw as [-> | ->]; reflexivity|].
    unfold r1. rewrite skip_pretty by (assumption || reflexivity). reflexivity. }
  assert (after "host status: " (three what s d h) = Some r3) as E3.
  { unfold three. fold r3 r2 r1. transitivity (after "host status: " r1); [destruct Hw as [-> | ->]; reflexivity|].
    unfold r1. rewrite skip_pretty by (assumption || reflexivity). rewrite after_host_const.
    unfold r2. rewrite skip_pretty by (assumption || reflexivity). reflexivity. }
  unfold hex_after, name_after. rewrite E1, E2, E3. cbn [option_map].
  unfold r1, r2, r3. rewrite !hex_of_pretty by (assumption || reflexivity || exact Logic.I).
  rewrite !word_of_pretty by reflexivity. repeat split.
Qed.

Lemma some_eq : forall (A : Type) (a b : A), Some a = Some b -> b = a.
Proof. congruence. Qed.

Lemma linux_text_iff : forall D sense_of (s : Executer.executer sgio (linux_world D)) r,
  linux_handle sense_of (Some r) s = Ok (Executer.RespExn EAsiSCSI, pack_id r) <-> exists t, linux_text r = Some t.
Proof.
  intros D sense_of s r. unfold linux_handle, linux_text.
  destruct (negb _ || negb _).
  - split; [|intros [t H]; discriminate].
    destruct (string_at _ _ _) as [b|e]; cbn; [|discriminate].
    unfold check_condition. destruct (sense_of b); cbn; discriminate.
  - destruct (negb (status r =? 0)).
    + destruct (host_status r =? 7); [split; [discriminate|intros [t H]; discriminate]|].
      destruct (host_status r =? _); [split; [discriminate|intros [t H]; discriminate]|].
      split; [eauto|reflexivity].
    + destruct (negb (Z.land (driver_status r) 15 =? 0)); [split; [eauto|reflexivity]|].
      destruct (negb (host_status r =? 0)); [split; [eauto|reflexivity]|].
      split; [|intros [t H]; discriminate].
      destruct (Executer.get_os_data s (pack_id r)) as [q|]; [|discriminate].
      destruct (_ && _); [|discriminate]. destruct (data_buffer q); [|discriminate].
      destruct (raw_of _ _); cbn; discriminate.
Qed.

Lemma land15 : forall z, Z.land z 15 = z mod 16.
Proof. intros. change 15 with (Z.ones 4). rewrite Z.land_ones by lia. reflexivity. Qed.

Lemma linux_text_not_sense : forall r t, linux_text r = Some t -> driver_status r mod 16 <> 8.
Proof.
  intros r t H E. unfold linux_text in H.
  assert (Z.land (driver_status r) 8 <> 0) as N.
  { intros H8. assert (Z.testbit (Z.land (driver_status r) 8) 3 = false) as B by (rewrite H8; reflexivity).
    rewrite Z.land_spec in B. change (Z.testbit 8 3) with true in B. rewrite andb_true_r in B.
    assert (Z.testbit (driver_status r mod 2 ^ 4) 3 = Z.testbit (driver_status r) 3) as C
      by (apply Z.mod_pow2_bits_low; lia).
    change (2 ^ 4) with 16 in C. rewrite E, B in C. discriminate. }
  apply Z.eqb_neq in N. unfold SG_ERR_DRIVER_SENSE in H. rewrite N, orb_true_r in H. discriminate.
Qed.

Lemma linux_text_tells : forall r t, 0 <= status r -> 0 <= host_status r ->
  linux_text r = Some t -> status r <> 0 \/ driver_status r mod 16 = 0 ->
  hex_after "zero: " t = Some (status r) /\ name_after "zero: " t = Some (sam_status (status r)) /\
  hex_after "(driver status: " t = Some (driver_status r mod 16) /\
  name_after "(driver status: " t = Some (linux_driver (driver_status r mod 16)) /\
  hex_after "host status: " t = Some (host_status r) /\
  name_after "host status: " t = Some (linux_host (host_status r)).
Proof.
  intros r t Hs Hh H C.
  pose proof (linux_text_not_sense _ _ H) as N.
  assert (0 <= driver_status r mod 16 < 16) as B by (apply Z.mod_pos_bound; lia).
  rewrite <- scsi_names, <- host_names, <- (driver_names _ B N).
  unfold linux_text in H. rewrite land15 in H.
  destruct (negb _ || negb _); [discriminate|].
  destruct (Z.eqb_spec (status r) 0) as [E|E]; cbn [negb] in H.
  - destruct C as [C|C]; [contradiction|]. rewrite C in H. cbn [Z.eqb negb] in H.
    destruct (negb (host_status r =? 0)); [|discriminate].
    apply some_eq in H; subst t. rewrite C.
    apply (three_reads "SCSI host status is not zero: " (status r) 0 (host_status r)); try lia. right; reflexivity.
  - destruct (host_status r =? 7); [discriminate|]. destruct (host_status r =? _); [discriminate|].
    apply some_eq in H; subst t.
    apply (three_reads "SCSI response status is not zero: " (status r) (driver_status r mod 16) (host_status r)); try lia.
    left; reflexivity.
Qed.

Lemma linux_driver_text : forall r t,
  linux_text r = Some t -> status r = 0 -> driver_status r mod 16 <> 0 ->
  hex_after "zero: " t = Some 0 /\ name_after "zero: " t = Some "SCSI_STATUS_GOOD" /\
  hex_after "host status: " t = Some (driver_status r mod 16) /\
  name_after "host status: " t = Some (linux_driver (driver_status r mod 16)).
Proof.
  intros r t H S0 N0. pose proof (linux_text_not_sense _ _ H) as N.
  assert (0 <= driver_status r mod 16 < 16) as B by (apply Z.mod_pos_bound; lia).
  rewrite <- (driver_names _ B N).
  unfold linux_text in H. rewrite land15 in H.
  destruct (negb _ || negb _); [discriminate|].
  rewrite S0 in H. cbn [Z.eqb negb] in H.
  apply Z.eqb_neq in N0. rewrite N0 in H. cbn [negb] in H. apply some_eq in H; subst t.
  generalize dependent (driver_status r mod 16). intros d _ N B.
  set (r2 := prettify_status d DRIVER_STATUS_CODES ++ ")").
  assert (after "zero: " ("SCSI driver response status is not zero: " ++ prettify_status 0 SCSI_STATUS_CODES
    ++ " (host status: " ++ r2) = Some (prettify_status 0 SCSI_STATUS_CODES ++ " (host status: " ++ r2)) as E1 by reflexivity.
  assert (after "host status: " ("SCSI driver response status is not zero: " ++ prettify_status 0 SCSI_STATUS_CODES
    ++ " (host status: " ++ r2) = Some r2) as E2 by reflexivity.
  unfold hex_after, name_after.
  fold r2. rewrite E1, E2.
  cbn [option_map]. unfold r2. rewrite (hex_of_pretty d) by (lia || reflexivity || exact Logic.I).
  rewrite (word_of_pretty d) by reflexivity. repeat split; reflexivity.
Qed.

Lemma solaris_text_iff : forall D sense_of (s : Executer.executer scsicmd (solaris_world D)) r,
  solaris_handle sense_of r s = Ok (Executer.RespExn EAsiSCSI, 0) <-> exists t, solaris_text r = Some t.
Proof.
  intros D sense_of s r. unfold solaris_handle, solaris_text. cbv zeta.
  destruct (negb (Z.land _ SCSI_STATUS_CHECK_CONDITION =? 0)).
  - split; [|intros [t H]; discriminate].
    destruct (string_at _ _ _) as [b|e]; cbn; [|discriminate].
    unfold check_condition. destruct (sense_of b); cbn; discriminate.
  - destruct (negb (Z.land _ 255 =? 0)); [split; [eauto|reflexivity]|].
    destruct (negb (uscsi_rqstatus r =? 0)); [split; [eauto|reflexivity]|].
    split; [|intros [t H]; discriminate].
    destruct (Executer.get_os_data s 0) as [q|]; [|discriminate].
    destruct (_ && _); [|discriminate]. destruct (u_data_buffer q); [|discriminate].
    destruct (raw_of _ _); cbn; discriminate.
Qed.

Lemma land255 : forall z, Z.land z 255 = z mod 256.
Proof. intros. change 255 with (Z.ones 8). rewrite Z.land_ones by lia. reflexivity. Qed.

Lemma solaris_text_tells : forall r t, 0 <= uscsi_rqstatus r -> solaris_text r = Some t ->
  (uscsi_status r mod 256 <> 0 ->
     hex_after "zero: " t = Some (uscsi_status r mod 256) /\ hex_after "reason: " t = Some 0) /\
  (uscsi_status r mod 256 = 0 -> hex_after "zero: " t = Some (uscsi_rqstatus r)).
Proof.
  intros r t Hq H. unfold solaris_text in H. cbv zeta in H. rewrite land255 in H.
  assert (0 <= uscsi_status r mod 256 < 256) as B by (apply Z.mod_pos_bound; lia).
  assert (solaris_reason r = 0) as R.
  { unfold solaris_reason. rewrite land255, Z.shiftl_mul_pow2 by lia. change (2 ^ 8) with 256. apply Z.mod_mul; lia. }
  rewrite R in H.
  destruct (negb (Z.land _ SCSI_STATUS_CHECK_CONDITION =? 0)); [discriminate|].
  destruct (Z.eqb_spec (uscsi_status r mod 256) 0) as [E|E]; cbn [negb] in H.
  - split; [contradiction|intros _].
    destruct (negb (uscsi_rqstatus r =? 0)); [|discriminate]. apply some_eq in H; subst t.
    set (v := uscsi_rqstatus r) in *.
    transitivity (Some (number_from 16 0 (hex02 v ++ ""))); [rewrite app_nil_str; reflexivity|].
    f_equal. apply number_of_hex02; [exact Hq|exact Logic.I].
  - split; [intros _|contradiction]. apply some_eq in H; subst t.
    set (rest := " (SCSI reason: 0x" ++ hex02 0 ++ ")").
    set (v := uscsi_status r mod 256) in *. split.
    + transitivity (Some (number_from 16 0 (hex02 v ++ rest))); [reflexivity|].
      f_equal. apply number_of_hex02; [lia|exact Logic.I].
    + unfold hex_after.
      assert (after "reason: " ("SCSI response status is not zero: 0x" ++ hex02 v ++ rest) = after "reason: " rest) as E1.
      { transitivity (after "reason: " (hex02 v ++ rest)); [reflexivity|].
        apply after_skip, all_digits_lacks; [reflexivity|apply hex02_all; lia]. }
      rewrite E1. reflexivity.
Qed.

Lemma aix_text_iff : forall D sense_of (s : Executer.executer passthru (aix_world D)) r adapter,
  aix_handle sense_of r s = Ok (Executer.RespExn EAsiSCSI, 0) <-> exists t, aix_text r adapter = Some t.
Proof.
  intros D sense_of s r adapter. unfold aix_handle, aix_text. cbv zeta.
  destruct (negb (status_validity r =? 0)).
  - destruct (status_validity r =? SC_SCSI_ERROR).
    + destruct (negb (Z.land _ SCSI_STATUS_CHECK_CONDITION =? 0)); [|split; [eauto|reflexivity]].
      split; [|intros [t H]; discriminate].
      destruct (string_at _ _ _) as [b|e]; cbn; [|discriminate].
      unfold check_condition. destruct (sense_of b); cbn; discriminate.
    + destruct (status_validity r =? SC_ADAPTER_ERROR); split; eauto.
  - split; [|intros [t H]; discriminate].
    destruct (Executer.get_os_data s 0) as [q|]; [|discriminate].
    destruct (nth_error _ _) as [x|]; [|discriminate].
    destruct (_ && _); [|discriminate]. destruct (p_data_buffer q); [|discriminate].
    destruct (raw_of _ _); cbn; discriminate.
Qed.

Lemma aix_reads : forall msg r adapter, 0 <= status_validity r -> 0 <= adapter ->
  In msg ["SCSI bus response status is not zero"; "SCSI adapter response status is not zero";
          "SCSI response status validity unknown"] ->
  let t := aix_error_text msg r adapter in
  hex_after ", validity=" t = Some (status_validity r) /\
  hex_after ", scsi_bus_status=" t = Some (Z.land (scsi_bus_status r) 30) /\
  name_after ", scsi_bus_status=" t = Some (code_string (Z.land (scsi_bus_status r) 30) SCSI_STATUS_CODES) /\
  hex_after ", adapter_status=" t = Some adapter /\
  name_after ", validity=" t = Some (code_string (status_validity r) STATUS_VALIDITY_CODES) /\
  name_after ", adapter_status=" t = Some (code_string adapter ADAPTER_STATUS_CODES).
Proof.
  intros msg r adapter Hv Ha Hm. cbv zeta.
  assert (0 <= Z.land (scsi_bus_status r) 30) as Hb by (apply Z.land_nonneg; right; lia).
  unfold aix_error_text, SCSI_STATUS_MASK.
  set (b := Z.land (scsi_bus_status r) 30) in *. set (v := status_validity r) in *.
  set (r3 := prettify_status adapter ADAPTER_STATUS_CODES).
  set (r2 := prettify_status b SCSI_STATUS_CODES ++ ", adapter_status=" ++ r3).
  set (r1 := prettify_status v STATUS_VALIDITY_CODES ++ ", scsi_bus_status=" ++ r2).
  assert (after ", validity=" (msg ++ ", validity=" ++ r1) = Some r1) as E1.
  { destruct Hm as [<-|[<-|[<-|[]]]]; reflexivity. }
  assert (after ", scsi_bus_status=" (msg ++ ", validity=" ++ r1) = Some r2) as E2.
  { transitivity (after ", scsi_bus_status=" r1); [destruct Hm as [<-|[<-|[<-|[]]]]; reflexivity|].
    unfold r1. rewrite skip_pretty by (assumption || reflexivity). reflexivity. }
  assert (after ", adapter_status=" (msg ++ ", validity=" ++ r1) = Some r3) as E3.
  { transitivity (after ", adapter_status=" r1); [destruct Hm as [<-|[<-|[<-|[]]]]; reflexivity|].
    unfold r1. rewrite skip_pretty by (assumption || reflexivity).
    transitivity (after ", adapter_status=" r2); [reflexivity|].
    unfold r2. rewrite skip_pretty by (assumption || reflexivity). reflexivity. }
  unfold hex_after, name_after. fold r3 r2 r1. rewrite E1, E2, E3. cbn [option_map].
  unfold r1, r2, r3. rewrite !hex_of_pretty by (assumption || reflexivity || exact Logic.I).
  rewrite !word_of_pretty by reflexivity.
  rewrite <- (app_nil_str (prettify_status adapter ADAPTER_STATUS_CODES)).
  rewrite hex_of_pretty by (assumption || reflexivity || exact Logic.I). rewrite word_of_pretty by reflexivity. repeat split.
Qed.

Lemma validity_names : forall c, code_string c STATUS_VALIDITY_CODES = aix_validity c.
Proof. intro c. unfold STATUS_VALIDITY_CODES, aix_validity. cbn [code_string]. rewrite !(Z.eqb_sym c). reflexivity. Qed.
Lemma adapter_names : forall c, code_string c ADAPTER_STATUS_CODES = aix_adapter c.
Proof. intro c. unfold ADAPTER_STATUS_CODES, aix_adapter. cbn [code_string]. rewrite !(Z.eqb_sym c). reflexivity. Qed.
Lemma aix_text_tells : forall r adapter t, 0 <= status_validity r -> 0 <= adapter ->
  aix_text r adapter = Some t -> starts (aix_message (status_validity r)) t = true /\
  hex_after ", validity=" t = Some (status_validity r) /\
  hex_after ", scsi_bus_status=" t = Some (Z.land (scsi_bus_status r) 30) /\
  name_after ", scsi_bus_status=" t = Some (sam_status (Z.land (scsi_bus_status r) 30)) /\
  hex_after ", adapter_status=" t = Some adapter /\
  name_after ", validity=" t = Some (aix_validity (status_validity r)) /\
  name_after ", adapter_status=" t = Some (aix_adapter adapter).
Proof.
  intros r adapter t Hv Ha H. rewrite <- scsi_names, <- validity_names, <- adapter_names. unfold aix_text in H. cbv zeta in H.
  destruct (negb (status_validity r =? 0)); [|discriminate]. unfold aix_message. change SC_SCSI_ERROR with 1 in H. change SC_ADAPTER_ERROR with 2 in H.
  destruct (status_validity r =? 1).
  - destruct (negb _); [discriminate|]. apply some_eq in H; subst t. split; [reflexivity|]. apply aix_reads; [assumption..|cbn; tauto].
  - destruct (status_validity r =? 2); apply some_eq in H; subst t; (split; [reflexivity|]); apply aix_reads; try assumption; cbn; tauto.
Qed.

Lemma win_text_tells : forall z t, 0 <= z -> win_text z = Some t -> decimal_after "zero: " t = Some z.
Proof.
  intros z t Hz H. unfold win_text in H. destruct (z =? 0); [discriminate|]. destruct (z =? _); [discriminate|].
  apply some_eq in H; subst t. unfold decimal_after. change (after "zero: " _) with (Some (digits 10 z)).
  cbn [option_map]. f_equal. rewrite <- (app_nil_str (digits 10 z)). apply number_of_digits; [lia|exact Hz|exact Logic.I].
Qed.

Lemma win_text_iff : forall D sense_of (w : win_world D) r q,
  nth_error (w_objs w) (spt_obj r) = Some q ->
  (win_handle sense_of r w = Ok (Executer.RespExn EAsiSCSI, packet_id r) <-> exists t, win_text (ScsiStatus q) = Some t).
Proof.
  intros D sense_of w r q E. unfold win_handle, win_text. rewrite E.
  destruct (ScsiStatus q =? 0); cbn [negb].
  - split; [|intros [t H]; discriminate]. destruct (_ && _); [|discriminate].
    destruct (spt_data r); [|discriminate]. destruct (raw_of _ _); cbn; discriminate.
  - destruct (ScsiStatus q =? _).
    + split; [|intros [t H]; discriminate]. unfold check_condition. destruct (sense_of _); cbn; discriminate.
    + split; eauto.
Qed.
