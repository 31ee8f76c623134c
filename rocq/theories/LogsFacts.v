(** Lemmas about the texts of Logs.v. *)
From Coq Require Import String Ascii ZArith List Bool Lia.
From Verif Require Import Base OsCommon Ctypes ErrorText SpecText TextFacts Logs SpecLogs.
Import ListNotations.
Local Open Scope string_scope.
Local Open Scope list_scope.
Local Open Scope Z_scope.

Lemma free_lacks : forall c t, free_of c t -> lacks c t = true.
Proof.
  induction t as [|a t IH]; intros H; [reflexivity|]. unfold free_of in H. cbn [before lacks] in *.
  destruct (Ascii.eqb a c); [discriminate H|]. injection H as H. apply IH, H.
Qed.
Lemma lacks_app : forall c a b, lacks c (a ++ b)%string = lacks c a && lacks c b.
Proof. induction a as [|x a IH]; intros b; [reflexivity|]. cbn [append lacks]. rewrite IH. apply andb_assoc. Qed.

Lemma split_sep : forall c x t, lacks c x = true -> split_at c (x ++ String c t)%string = x :: split_at c t.
Proof.
  induction x as [|a x IH]; intros t H; cbn [append split_at].
  - rewrite Ascii.eqb_refl. reflexivity.
  - cbn [lacks] in H. apply andb_prop in H. destruct H as [Ha H]. rewrite (IH t H). destruct (Ascii.eqb a c); [discriminate Ha|reflexivity].
Qed.
Lemma split_end : forall c x, lacks c x = true -> split_at c x = [x].
Proof.
  induction x as [|a x IH]; intros H; cbn [split_at]; [reflexivity|].
  cbn [lacks] in H. apply andb_prop in H. destruct H as [Ha H]. rewrite (IH H). destruct (Ascii.eqb a c); [discriminate Ha|reflexivity].
Qed.
Lemma before_app : forall c x t, lacks c x = true -> before c (x ++ String c t)%string = x.
Proof.
  induction x as [|a x IH]; intros t H; cbn [append before].
  - rewrite Ascii.eqb_refl. reflexivity.
  - cbn [lacks] in H. apply andb_prop in H. destruct H as [Ha H]. rewrite (IH t H). destruct (Ascii.eqb a c); [discriminate Ha|reflexivity].
Qed.

(** ** Integers *)

Lemma digits_head : forall fuel v acc, 0 <= v -> exists c r, digits_from (Datatypes.S fuel) 10 v acc = String c r /\ 48 <= Z.of_nat (nat_of_ascii c) <= 57.
Proof.
  induction fuel as [|k IH]; intros v acc Hv.
  - cbn [digits_from]. pose proof (Z.mod_pos_bound v 10 ltac:(lia)).
    assert (X : 48 <= Z.of_nat (nat_of_ascii (digit_char (v mod 10))) <= 57).
    { unfold digit_char. destruct (Z.ltb_spec (v mod 10) 10); [|lia]. rewrite nat_ascii_embedding by lia. lia. }
    destruct (v <? 10); eauto.
  - change (digits_from (Datatypes.S (Datatypes.S k)) 10 v acc) with
      (let acc' := String (digit_char (v mod 10)) acc in if v <? 10 then acc' else digits_from (Datatypes.S k) 10 (v / 10) acc').
    cbv zeta. pose proof (Z.mod_pos_bound v 10 ltac:(lia)). destruct (v <? 10).
    + eexists _, _. split; [reflexivity|]. unfold digit_char. destruct (Z.ltb_spec (v mod 10) 10); [|lia].
      rewrite nat_ascii_embedding by lia. lia.
    + apply IH. apply Z.div_pos; lia.
Qed.

Definition ends (t : string) : Prop := stops 10 t.
Lemma integer_decimal : forall z t, ends t -> integer (decimal z ++ t)%string = Some z.
Proof.
  intros z t E. unfold decimal. destruct (Z.ltb_spec z 0) as [N|N].
  - cbn [append]. unfold integer. replace (starts "None" (String "-" (digits 10 (- z) ++ t)%string)) with false by reflexivity.
    rewrite Ascii.eqb_refl. rewrite number_of_digits; [rewrite Z.opp_involutive; reflexivity|lia|lia|exact E].
  - destruct (digits_head (Z.to_nat z) z "" N) as (c & r & X & B). pose proof (number_of_digits 10 z t ltac:(lia) N E) as R.
    unfold digits in *. rewrite X in *. cbn [append] in *. unfold integer.
    replace (starts "None" (String c (r ++ t))) with false.
    2:{ cbn [starts]. destruct (ascii_dec "N" c) as [<-|_]; [exfalso; destruct B as [B1 B2]; first [exact (B1 eq_refl) | exact (B2 eq_refl)]|reflexivity]. }
    destruct (Ascii.eqb_spec c "-") as [->|_]; [exfalso; destruct B as [B1 B2]; first [exact (B1 eq_refl) | exact (B2 eq_refl)]|].
    unfold digit_value. destruct (Z.leb_spec 48 (Z.of_nat (nat_of_ascii c))); [|lia]. destruct (Z.leb_spec (Z.of_nat (nat_of_ascii c)) 57); [|lia].
    cbn [andb]. destruct (Z.ltb_spec (Z.of_nat (nat_of_ascii c) - 48) 10); [|lia]. f_equal. exact R.
Qed.
Lemma digits_lacks : forall c v, 0 <= v -> is_digit c = false -> lacks c (digits 10 v) = true.
Proof. intros c v V D. apply all_digits_lacks; [exact D|]. apply digits_from_all; [lia|exact V|reflexivity]. Qed.
Lemma decimal_lacks : forall c z, is_digit c = false -> Ascii.eqb "-" c = false -> lacks c (decimal z) = true.
Proof.
  intros c z D M. unfold decimal. destruct (Z.ltb_spec z 0); [|apply digits_lacks; [lia|exact D]].
  cbn [append lacks]. rewrite M. cbn [negb andb]. apply digits_lacks; [lia|exact D].
Qed.

(** ** Named values *)

Definition plain_name (n : string) : bool := lacks "=" n && lacks "," n && lacks newline n && lacks "(" n &&
  match n with String a _ => negb (Ascii.eqb a " " || Ascii.eqb a (ascii_of_nat 9)) | "" => false end.

Lemma plain_unindented : forall n t, plain_name n = true -> unindented (n ++ t)%string = (n ++ t)%string.
Proof.
  intros [|a n] t H; unfold plain_name in H; rewrite !andb_true_iff in H; [destruct H; discriminate|].
  cbn [append unindented]. destruct H as [_ H]. destruct (_ || _); [discriminate H|reflexivity].
Qed.

Lemma field_read : forall object mark n v t, object_text object -> (mark = "" \/ mark = "L") -> ends t ->
  integer (field_text object mark n v ++ t)%string = value_read v.
Proof.
  intros object mark n v t (o & -> & _) M E. destruct v as [z|b]; cbn [field_text value_read].
  - destruct (Z.eqb_spec z 0) as [->|_]; cbn [andb].
    + destruct (existsb _ _); [reflexivity|]. rewrite append_assoc. apply integer_decimal. destruct M as [->| ->]; [exact E|exact Logic.I].
    + rewrite append_assoc. apply integer_decimal. destruct M as [->| ->]; [exact E|exact Logic.I].
  - reflexivity.
Qed.
Lemma field_lacks : forall (c : ascii) object mark n v, object_text object -> (mark = "" \/ mark = "L") -> c = ","%char \/ c = newline ->
  (c = ","%char -> exists z, v = CNum z) ->
  lacks c (field_text object mark n v) = true.
Proof.
  intros c object mark n v (o & -> & F) M C V. destruct v as [z|b]; cbn [field_text].
  - destruct (_ && _); [destruct C as [->| ->]; reflexivity|].
    rewrite lacks_app. apply andb_true_iff. split; [apply decimal_lacks; destruct C as [->| ->]; reflexivity|].
    destruct M as [->| ->], C as [->| ->]; reflexivity.
  - destruct C as [->| ->]; [destruct (V eq_refl) as (z & E); discriminate E|]. cbn [lacks]. apply free_lacks in F. rewrite F. reflexivity.
Qed.

Lemma named : forall object mark n v t, plain_name n = true -> object_text object -> (mark = "" \/ mark = "L") -> ends t ->
  forall lead, lead = "" \/ lead = " " \/ lead = String (ascii_of_nat 9) "" ->
  named_value (lead ++ n ++ "=" ++ field_text object mark n v ++ t)%string = (n, value_read v).
Proof.
  intros object mark n v t P O M E lead L. unfold named_value.
  assert (Q : lacks "=" n = true) by (unfold plain_name in P; rewrite !andb_true_iff in P; tauto).
  assert (U : unindented (lead ++ n ++ "=" ++ field_text object mark n v ++ t)%string = (n ++ "=" ++ field_text object mark n v ++ t)%string).
  { destruct L as [->|[->| ->]]; cbn [append unindented]; apply plain_unindented; exact P. }
  rewrite U. cbn [append]. rewrite before_app by exact Q. f_equal. unfold integer_after.
  change (String "=" (field_text object mark n v ++ t)) with ("=" ++ field_text object mark n v ++ t)%string.
  replace (after "=" (lead ++ n ++ "=" ++ field_text object mark n v ++ t)%string) with (Some (field_text object mark n v ++ t)%string).
  - apply field_read; assumption.
  - symmetry. rewrite after_skip by (destruct L as [->|[->| ->]]; reflexivity). rewrite after_skip by exact Q. reflexivity.
Qed.

(** ** Linux and Solaris *)

Definition comma_pieces (names : list string) : list (string * string) := map (fun n => (", " ++ n ++ "=", n)%string) names.

Lemma no_object : object_text "<". Proof. exists "". split; reflexivity. Qed.
Lemma no_array : forall object n z mark, field_text object mark n (CNum z) = field_text "<" mark n (CNum z). Proof. reflexivity. Qed.

Lemma comma_format : forall self names zs, Forall2 (fun n z => plain_name n = true /\ attribute n self = Ok (CNum z)) names zs ->
  exists t, format_self (comma_pieces names) ")" self = Ok t /\ ends t /\
    forall n z, plain_name n = true -> forall lead, lead = "" \/ lead = " " ->
    map named_value (split_at "," (lead ++ n ++ "=" ++ field_text "" "" n (CNum z) ++ t)%string) = (n, Some z) :: combine names (map Some zs).
Proof.
  intros self names zs H. induction H as [|n1 z1 names zs [P1 A1] _ IH]; cbn [comma_pieces map format_self].
  - exists ")". split; [reflexivity|]. split; [exact Logic.I|]. intros n z P lead L.
    rewrite split_end.
    + cbn [map combine]. f_equal. rewrite no_array. apply named; auto using no_object; [exact Logic.I|tauto].
    + rewrite !lacks_app. rewrite no_array, field_lacks; auto using no_object; [|eauto]. unfold plain_name in P. rewrite !andb_true_iff in P.
      destruct P as [[[[_ P] _] _] _]. rewrite P. destruct L as [->| ->]; reflexivity.
  - destruct IH as (t & F & E & R). rewrite A1. cbn [bind]. unfold comma_pieces in F. rewrite F. cbn [bind].
    eexists. split; [reflexivity|]. split; [exact Logic.I|]. intros n z P lead L.
    assert (X : (lead ++ n ++ "=" ++ field_text "" "" n (CNum z) ++ (", " ++ n1 ++ "=") ++ field_text "" "" n1 (CNum z1) ++ t)%string =
      ((lead ++ n ++ "=" ++ field_text "" "" n (CNum z)) ++ String "," (" " ++ n1 ++ "=" ++ field_text "" "" n1 (CNum z1) ++ t))%string)
      by (rewrite !append_assoc; reflexivity).
    rewrite X. rewrite split_sep.
    + cbn [map combine]. f_equal.
      * rewrite no_array, <- (app_nil_str (field_text "<" "" n (CNum z))). apply named; auto using no_object; [exact Logic.I|tauto].
      * rewrite (R n1 z1 P1 " " ltac:(auto)). reflexivity.
    + rewrite !lacks_app. rewrite no_array, field_lacks; auto using no_object; [|eauto]. unfold plain_name in P. rewrite !andb_true_iff in P.
      destruct P as [[[[_ P] _] _] _]. rewrite P. destruct L as [->| ->]; reflexivity.
Qed.

Lemma comma_repr : forall class self n z names zs, lacks "(" class = true -> plain_name n = true -> attribute n self = Ok (CNum z) ->
  Forall2 (fun n z => plain_name n = true /\ attribute n self = Ok (CNum z)) names zs ->
  exists t, format_self ((class ++ "(" ++ n ++ "=", n)%string :: comma_pieces names) ")" self = Ok t /\
    starts (class ++ "(")%string t = true /\ named_values "," t = combine (n :: names) (map Some (z :: zs)).
Proof.
  intros class self n z names zs C P A H. destruct (comma_format self names zs H) as (t & F & E & R).
  cbn [format_self]. rewrite A. cbn [bind]. rewrite F. cbn [bind]. eexists. split; [reflexivity|]. split.
  - rewrite !append_assoc. clear. induction class as [|a class IH]; [reflexivity|]. cbn [append starts]. destruct (ascii_dec a a); [exact IH|contradiction].
  - unfold named_values. rewrite !append_assoc. rewrite after_skip by exact C.
    change (after "(" ("(" ++ n ++ "=" ++ field_text "" "" n (CNum z) ++ t)%string) with (Some (n ++ "=" ++ field_text "" "" n (CNum z) ++ t)%string).
    exact (R n z P "" ltac:(auto)).
Qed.

Lemma sgio_repr_tells : forall a zs, length zs = 22%nat ->
  exists t, sgio_repr a (map CNum zs) = Ok t /\ starts "SGIO(" t = true /\ named_values "," t = combine sg_io_hdr_members (map Some zs).
Proof.
  intros a zs L. do 23 (destruct zs as [|? zs]; try discriminate L). 
  apply (comma_repr "SGIO" (combine (map fst (sgio_fields a)) (map CNum [z; z0; z1; z2; z3; z4; z5; z6; z7; z8; z9; z10; z11; z12; z13; z14; z15; z16; z17; z18; z19; z20]))
    "interface_id" z (tl sg_io_hdr_members) [z0; z1; z2; z3; z4; z5; z6; z7; z8; z9; z10; z11; z12; z13; z14; z15; z16; z17; z18; z19; z20]); try reflexivity.
  repeat (constructor; [split; reflexivity|]). constructor.
Qed.
Lemma scsicmd_repr_tells : forall a zs, length zs = 13%nat ->
  exists t, scsicmd_repr a (map CNum zs) = Ok t /\ starts "SCSICMD(" t = true /\ named_values "," t = combine uscsi_cmd_members (map Some zs).
Proof.
  intros a zs L. do 14 (destruct zs as [|? zs]; try discriminate L).
  apply (comma_repr "SCSICMD" (combine (map fst (scsicmd_fields a)) (map CNum [z; z0; z1; z2; z3; z4; z5; z6; z7; z8; z9; z10; z11]))
    "uscsi_flags" z (tl uscsi_cmd_members) [z0; z1; z2; z3; z4; z5; z6; z7; z8; z9; z10; z11]); try reflexivity.
  repeat (constructor; [split; reflexivity|]). constructor.
Qed.

(** ** AIX *)

Lemma join_repr : forall object mark, object_text object -> (forall n, mark n = "" \/ mark n = "L") ->
  forall names vs, length vs = length names -> names <> [] -> forallb plain_name names = true ->
  forall lead, lead = "" \/ lead = String (ascii_of_nat 9) "" ->
  map named_value (split_at newline (lead ++ join newline_tab
      (map (fun p => fst p ++ "=" ++ field_text object (mark (fst p)) (fst p) (snd p)) (combine names vs)) ++ ")")%string) =
  combine names (map value_read vs).
Proof.
  intros object mark O M. induction names as [|n names IH]; intros vs L Ne P lead Hl; [contradiction|].
  destruct vs as [|v vs]; [discriminate L|]. cbn [forallb] in P. apply andb_prop in P. destruct P as [Pn P].
  assert (Q : lacks newline n = true) by (unfold plain_name in Pn; rewrite !andb_true_iff in Pn; tauto).
  assert (K : lacks newline (lead ++ n ++ "=" ++ field_text object (mark n) n v)%string = true).
  { rewrite !lacks_app, Q, field_lacks; auto; [destruct Hl as [->| ->]; reflexivity|intro H; discriminate H]. }
  destruct names as [|n2 names].
  - destruct vs; [|discriminate L]. cbn [combine map join fst snd]. rewrite !append_assoc. rewrite split_end.
    + cbn [map combine]. f_equal. apply named; auto; [exact Logic.I|tauto].
    + rewrite <- !append_assoc. rewrite lacks_app. rewrite !append_assoc, K. reflexivity.
  - destruct vs as [|v2 vs]; [discriminate L|].
    change (join newline_tab (map _ (combine (n :: n2 :: names) (v :: v2 :: vs)))) with
      ((n ++ "=" ++ field_text object (mark n) n v) ++ newline_tab ++ join newline_tab
        (map (fun p => fst p ++ "=" ++ field_text object (mark (fst p)) (fst p) (snd p)) (combine (n2 :: names) (v2 :: vs))))%string.
    assert (X : forall j, (lead ++ ((n ++ "=" ++ field_text object (mark n) n v) ++ newline_tab ++ j) ++ ")")%string =
      ((lead ++ n ++ "=" ++ field_text object (mark n) n v) ++ String newline (String (ascii_of_nat 9) "" ++ j ++ ")"))%string)
      by (intro j; rewrite !append_assoc; reflexivity).
    rewrite X, split_sep by exact K. cbn [map]. rewrite IH; auto; [|discriminate].
    cbn [map combine]. f_equal. rewrite <- (app_nil_str (field_text object (mark n) n v)). apply named; auto; [exact Logic.I|tauto].
Qed.

Lemma passthru_repr_tells : forall a object mark vs, object_text object -> (forall n, mark n = "" \/ mark n = "L") -> length vs = 27%nat ->
  starts "sc_passthru(" (passthru_repr a object mark vs) = true /\
  named_values newline (passthru_repr a object mark vs) = combine sc_passthru_members (map value_read vs).
Proof.
  intros a object mark vs O M L. split; [reflexivity|].
  pose proof (join_repr object mark O M sc_passthru_members vs L ltac:(discriminate) eq_refl "" ltac:(auto)) as J.
  cbn [append] in J. exact J.
Qed.
Lemma passthru_hides : forall a object mark front b b' rest, length front = 21%nat ->
  passthru_repr a object mark (front ++ CBytes b :: rest) = passthru_repr a object mark (front ++ CBytes b' :: rest).
Proof.
  intros a object mark front b b' rest L. do 22 (destruct front as [|? front]; try discriminate L). reflexivity.
Qed.

(** ** Windows *)

Lemma white_blank : forall c, white c = blank c.
Proof. intro c. unfold white, blank. cbn [existsb]. destruct (Nat.eqb (nat_of_ascii c) 32), (Nat.eqb (nat_of_ascii c) 9), (Nat.eqb (nat_of_ascii c) 10),
  (Nat.eqb (nat_of_ascii c) 11), (Nat.eqb (nat_of_ascii c) 12), (Nat.eqb (nat_of_ascii c) 13); reflexivity. Qed.

Lemma lstrip_spec : forall t, exists a, t = (a ++ lstrip t)%string /\ blanks a = true /\ forall c r, lstrip t = String c r -> blank c = false.
Proof.
  induction t as [|c t (a & E & B & H)]; [exists ""; repeat split; intros; discriminate|]. cbn [lstrip]. destruct (white c) eqn:W.
  - exists (String c a). cbn [append blanks]. rewrite <- E, <- white_blank, W, B. auto.
  - exists "". split; [reflexivity|]. split; [reflexivity|]. intros c' r X. injection X as <- _. rewrite <- white_blank. exact W.
Qed.
Lemma last_unique : forall r r' c c', (r ++ String c "")%string = (r' ++ String c' "")%string -> c = c'.
Proof.
  induction r as [|a r IH]; intros [|a' r'] c c' H; cbn [append] in H.
  - injection H as H. exact H.
  - exfalso. destruct r'; discriminate H.
  - exfalso. destruct r; discriminate H.
  - apply (IH r' c c'). injection H as _ H. exact H.
Qed.
Lemma rstrip_spec : forall t, exists b, t = (rstrip t ++ b)%string /\ blanks b = true /\ forall c r, rstrip t = (r ++ String c "")%string -> blank c = false.
Proof.
  induction t as [|c t (b & E & B & H)]; [exists ""; repeat split; intros c r X; destruct r; discriminate|].
  change (rstrip (String c t)) with (match rstrip t with "" => if white c then "" else String c "" | _ => String c (rstrip t) end).
  destruct (rstrip t) as [|c' t'] eqn:R.
  - cbn [append] in E. destruct (white c) eqn:W.
    + exists (String c b). cbn [append blanks]. rewrite <- white_blank, W, B, <- E. repeat split. intros c' r X. destruct r; discriminate.
    + exists b. cbn [append]. subst t. repeat split; [exact B|]. intros c' r X.
      assert (c = c') as <- by (apply (last_unique "" r); exact X). rewrite <- white_blank. exact W.
  - exists b. split; [cbn [append]; rewrite E at 1; reflexivity|]. split; [exact B|].
    intros c2 [|a r] X; [discriminate X|]. cbn [append] in X. injection X as _ X. exact (H c2 r X).
Qed.
Lemma strip_trimmed : forall t, trimmed t (strip t).
Proof.
  intro t. unfold strip. destruct (lstrip_spec t) as (a & E & Ba & H). destruct (rstrip_spec (lstrip t)) as (b & E' & Bb & H').
  split; [exists a, b; rewrite <- E'; auto|]. split; [|exact H'].
  intros c r X. rewrite X in E'. cbn [append] in E'. eapply H. exact E'.
Qed.

Lemma last_error_signed : forall code, 0 <= code < 2 ^ 32 -> get_last_error code = if code <? 2 ^ 31 then code else code - 2 ^ 32.
Proof.
  intros code C. unfold get_last_error, c_int, c_signed. change (32 - 1) with 31. destruct (Z.ltb_spec code (2 ^ 31)).
  - rewrite Z.mod_small; lia.
  - replace (code + 2 ^ 31) with (code - 2 ^ 31 + 1 * 2 ^ 32) by lia. rewrite Z.mod_add by lia. rewrite Z.mod_small; lia.
Qed.
Lemma last_error_low : forall code, 0 <= code < 2 ^ 32 -> Z.land (get_last_error code) 65535 = code mod 65536.
Proof.
  intros code C. change 65535 with (Z.ones 16). rewrite Z.land_ones by lia. rewrite last_error_signed by exact C.
  change (2 ^ 16) with 65536. destruct (code <? 2 ^ 31); [reflexivity|].
  replace (code - 2 ^ 32) with (code + (- 65536) * 65536) by lia. apply Z.mod_add. lia.
Qed.
Lemma up_to_nul_free : forall t, free_of zero t -> up_to_nul t = t.
Proof.
  induction t as [|c t IH]; intros H; [reflexivity|]. unfold free_of in H. cbn [before up_to_nul] in *. destruct (Ascii.eqb c zero); [discriminate H|].
  injection H as H. rewrite IH; auto.
Qed.

Lemma error_number : forall messages str_of call path code, free_of "(" path ->
  integer_after "(win32 error " (error_text (raised_error messages str_of call path code)) = Some (get_last_error code).
Proof.
  intros messages str_of call path code F. apply free_lacks in F. unfold integer_after, raised_error, asi_win32_os_error, error_text.
  rewrite after_skip.
  2:{ destruct call; cbn [details_of]; rewrite ?lacks_app, ?F; cbn [lacks]; try reflexivity.
      - rewrite decimal_lacks by reflexivity. reflexivity.
      - rewrite decimal_lacks by reflexivity. reflexivity. }
  change (after "(win32 error " (" (win32 error " ++ ?x)%string) with (Some x). cbv iota.
  apply integer_decimal. exact Logic.I.
Qed.
Lemma error_call : forall messages str_of call path code,
  starts (call_name call) (error_text (raised_error messages str_of call path code)) = true /\
  match call with
  | FDeviceIoControl control_code => integer_after "DeviceIoControl " (error_text (raised_error messages str_of call path code)) = Some control_code
  | FWait result => integer_after "result=" (error_text (raised_error messages str_of call path code)) = Some result
  | _ => True
  end /\
  match call with
  | FWait _ => True
  | _ => exists rest, after "path " (error_text (raised_error messages str_of call path code)) = Some (path ++ " failed (win32 error " ++ rest)%string
  end.
Proof.
  intros messages str_of call path code. unfold raised_error, asi_win32_os_error, error_text.
  destruct call as [| |control_code|result]; cbn [call_name details_of]; (split; [reflexivity|]).
  - split; [exact Logic.I|]. rewrite !append_assoc. eexists. reflexivity.
  - split; [exact Logic.I|]. rewrite !append_assoc. eexists. reflexivity.
  - rewrite !append_assoc. split.
    + unfold integer_after. change (after "DeviceIoControl " ("DeviceIoControl " ++ ?x)%string) with (Some x). cbv iota. apply integer_decimal. exact Logic.I.
    + change (after "path " ("DeviceIoControl " ++ ?x)%string) with (after "path " x). rewrite after_skip by (apply decimal_lacks; reflexivity).
      eexists. reflexivity.
  - rewrite !append_assoc. split; [|exact Logic.I]. unfold integer_after.
    change (after "result=" ("WaitForMultipleObjects failed. result=" ++ ?x)%string) with (Some x). cbv iota. apply integer_decimal. exact Logic.I.
Qed.

Lemma error_message : forall messages str_of call path code, 0 <= code < 2 ^ 32 ->
  match messages (code mod 65536) with
  | Some t => (String.length t < 1024)%nat -> free_of zero t -> trimmed t (win32_message (raised_error messages str_of call path code))
  | None => win32_message (raised_error messages str_of call path code) = ""
  end.
Proof.
  intros messages str_of call path code C. unfold raised_error, asi_win32_os_error, win32_message. rewrite last_error_low by exact C.
  unfold format_message. destruct (messages (code mod 65536)) as [t|]; [|reflexivity].
  intros L F. destruct (Nat.ltb_spec (String.length t) 1024); [|lia]. rewrite up_to_nul_free by exact F. apply strip_trimmed.
Qed.

(** ** What was read from memory *)

Lemma loads_numbers : forall a (l : list (nat * ctype)) buf, Forall (fun p => exists n k s, snd p = Scalar n k s) l ->
  exists zs, map (fun p => load a (snd p) (slice (fst p) (fst p + size_of (snd p)) buf)) l = map CNum zs /\ length zs = length l.
Proof.
  intros a l buf H. induction H as [|[o t] l (n & k & s & X) _ (zs & E & L)]; [exists []; auto|]. cbn [snd] in X. subst t.
  cbn [map snd fst load]. rewrite E. eexists (_ :: zs). split; [reflexivity|]. cbn [length]. rewrite L. reflexivity.
Qed.
Lemma offsets_length : forall pack fs o, length (offsets pack o fs) = length fs.
Proof. induction fs as [|t fs IH]; intro o; [reflexivity|]. cbn [offsets length]. rewrite IH. reflexivity. Qed.
Lemma combine_snd : forall {A B} (P : B -> Prop) (l : list A) (l' : list B), Forall P l' -> Forall (fun p => P (snd p)) (combine l l').
Proof. intros A B P l l' H. revert l. induction H; intros [|x0 l0]; cbn [combine]; constructor; auto. Qed.
Lemma numbers_read : forall a fs buf vs, Forall (fun t => exists n k s, t = Scalar n k s) fs -> from_string a None fs buf = Ok vs ->
  exists zs, vs = map CNum zs /\ length zs = length fs.
Proof.
  intros a fs buf vs F H. unfold from_string in H. destruct (_ <? _)%nat; [discriminate H|].
  assert (E : map (fun p => load a (snd p) (slice (fst p) (fst p + size_of (snd p)) buf)) (combine (offsets None 0 fs) fs) = vs) by (injection H as H; exact H).
  destruct (loads_numbers a (combine (offsets None 0 fs) fs) buf) as (zs & E2 & L).
  - apply combine_snd with (P := fun t => exists n k s, t = Scalar n k s). exact F.
  - exists zs. rewrite <- E. split; [exact E2|]. rewrite L, combine_length, offsets_length. lia.
Qed.
Lemma values_of : forall zs, map value_read (map CNum zs) = map Some zs.
Proof. intro zs. rewrite map_map. reflexivity. Qed.
Lemma sgio_shown : forall a buf vs, sgio_from_string a buf = Ok vs ->
  exists t, sgio_repr a vs = Ok t /\ starts "SGIO(" t = true /\ named_values "," t = combine sg_io_hdr_members (map value_read vs).
Proof.
  intros a buf vs H. destruct (numbers_read a (map snd (sgio_fields a)) buf vs) with (2 := H) as (zs & -> & L).
  - cbn [map snd sgio_fields]. repeat (constructor; [eexists _, _, _; reflexivity|]). constructor.
  - rewrite values_of. apply sgio_repr_tells. exact L.
Qed.
Lemma scsicmd_shown : forall a buf vs, scsicmd_from_string a buf = Ok vs ->
  exists t, scsicmd_repr a vs = Ok t /\ starts "SCSICMD(" t = true /\ named_values "," t = combine uscsi_cmd_members (map value_read vs).
Proof.
  intros a buf vs H. destruct (numbers_read a (map snd (scsicmd_fields a)) buf vs) with (2 := H) as (zs & -> & L).
  - cbn [map snd scsicmd_fields]. repeat (constructor; [eexists _, _, _; reflexivity|]). constructor.
  - rewrite values_of. apply scsicmd_repr_tells. exact L.
Qed.
Lemma passthru_shown : forall a object mark buf vs, object_text object -> (forall n, mark n = "" \/ mark n = "L") -> passthru_from_string a buf = Ok vs ->
  starts "sc_passthru(" (passthru_repr a object mark vs) = true /\
  named_values newline (passthru_repr a object mark vs) = combine sc_passthru_members (map value_read vs).
Proof.
  intros a object mark buf vs O M H. apply passthru_repr_tells; [exact O|exact M|].
  unfold passthru_from_string, from_string in H. destruct (_ <? _)%nat; [discriminate H|].
  assert (E : length vs = 27%nat); [|exact E]. injection H as H. rewrite <- H. reflexivity.
Qed.
