(** C117: recognising a disk by its device identification page. *)
From Coq Require Import String ZArith List Bool Lia.
From Verif Require Import Base Gen SpecGen Executer OsCommon OsLinux SpecSg SpecDrivers SpecSession Instruct Command SpecDevice SpecCdb SpecExecute
  SpecPortable SpecReserve SpecAdaptive SpecPages SpecVpd SpecDiscover SpecPaths SpecAlua Pages SpecIdentify IdentifyFacts.
Import ListNotations.
Local Open Scope string_scope.
Local Open Scope list_scope.
Local Open Scope Z_scope.

(** ** Pages that fit into the allocation length *)

Theorem C117_all_fit : forall T tgt who next (sys : system T), one_of_four sys -> identifies tgt who next ->
  forall alloc t s, idle sys s t -> 4 + size_of (i_designators (who t)) <= alloc < 2 ^ 16 ->
  exists s', sync_wait_ends (coroutine (os_of sys tgt) (identify alloc)) s s' (shown (Ok (whole_page (who t)))) /\ idle sys s' (next t).
Proof.
  intros T tgt who next sys F D alloc t s Hi A. pose proof (identify_run T tgt who next D sys F alloc t s Hi) as X.
  rewrite seen_all in X by (try apply (id_conforms _ _ _ D); lia). apply X. pose proof (size_nonneg (i_designators (who t))). lia.
Qed.
(** Pages of different devices are different objects, and a designator is found in the list exactly if the device has it. *)
Theorem C117_same_page : forall a b, whole_page a = whole_page b <-> a = b.
Proof. intros a b. split; [apply whole_injective|intros ->; reflexivity]. Qed.
Theorem C117_found : forall who d, exists objects, designators_in (whole_page who) objects /\
  (In (designator_object d) objects <-> In d (i_designators who)).
Proof. intros who d. eexists. split; [reflexivity|]. apply in_objects. Qed.

(** ** Pages that do not fit *)

(** Cut between two designators: those after it are missing, without an exception. *)
Theorem C117_missing : forall T tgt who next (sys : system T), one_of_four sys -> identifies tgt who next ->
  forall l rest t s, idle sys s t -> i_designators (who t) = l ++ rest -> size_of l <= 65531 ->
  exists s', sync_wait_ends (coroutine (os_of sys tgt) (identify (4 + size_of l))) s s'
      (shown (Ok (page_with (who t) (map designator_object l)))) /\ idle sys s' (next t).
Proof.
  intros T tgt who next sys F D l rest t s Hi E L. pose proof (identify_run T tgt who next D sys F (4 + size_of l) t s Hi) as X.
  rewrite (seen_missing _ l rest) in X by (try apply (id_conforms _ _ _ D); exact E). apply X. pose proof (size_nonneg l). lia.
Qed.
(** Cut in a designator that is a number, or in the four bytes before the identifier: an exception, none is shown. *)
Theorem C117_cut_number : forall T tgt who next (sys : system T), one_of_four sys -> identifies tgt who next ->
  forall l d rest k t s, idle sys s t -> i_designators (who t) = l ++ d :: rest -> 0 < k < size_of [d] ->
  is_text (d_id d) = false \/ k < 4 -> 4 + size_of l + k < 2 ^ 16 ->
  exists s', sync_wait_ends (coroutine (os_of sys tgt) (identify (4 + size_of l + k))) s s' (Threw EInstruct) /\ idle sys s' (next t).
Proof.
  intros T tgt who next sys F D l d rest k t s Hi E K C L. pose proof (identify_run T tgt who next D sys F (4 + size_of l + k) t s Hi) as X.
  assert (S : size_of [d] = zlen (descriptor_bytes d)) by (unfold size_of; cbn [flat_map]; rewrite app_nil_r; reflexivity). rewrite S in K. unfold zlen in K.
  replace k with (Z.of_nat (Z.to_nat k)) in X by lia. rewrite (seen_number _ l d rest) in X;
    [|apply (id_conforms _ _ _ D)|exact E|lia|destruct C as [C|C]; [left; exact C|right; lia]].
  replace (Z.of_nat (Z.to_nat k)) with k in X by lia. apply X. pose proof (size_nonneg l). lia.
Qed.
(** Cut in a designator that is a text: the text is shorter, without an exception. *)
Theorem C117_cut_text : forall T tgt who next (sys : system T), one_of_four sys -> identifies tgt who next ->
  forall l d rest n t s, idle sys s t -> i_designators (who t) = l ++ d :: rest -> is_text (d_id d) = true ->
  (n < length (id_bytes (d_id d)))%nat -> 8 + size_of l + Z.of_nat n < 2 ^ 16 ->
  exists s', sync_wait_ends (coroutine (os_of sys tgt) (identify (8 + size_of l + Z.of_nat n))) s s'
      (shown (Ok (page_with (who t) (map designator_object l ++ [cut_object n d])))) /\ idle sys s' (next t).
Proof.
  intros T tgt who next sys F D l d rest n t s Hi E C N L. pose proof (identify_run T tgt who next D sys F (4 + size_of l + Z.of_nat (4 + n)) t s Hi) as X.
  rewrite (seen_text _ l d rest) in X; [|apply (id_conforms _ _ _ D)|exact E|unfold descriptor_bytes, raw_descriptor; cbn [length]; lia|exact C].
  replace (4 + n - 4)%nat with n in X by lia. replace (4 + size_of l + Z.of_nat (4 + n)) with (8 + size_of l + Z.of_nat n) in X by lia.
  apply X. pose proof (size_nonneg l). lia.
Qed.
(** Every allocation length below that of the page is one of these. *)
Theorem C117_every_cut : forall l alloc, 4 <= alloc < 4 + size_of l ->
  exists a d b k, l = a ++ d :: b /\ alloc = 4 + size_of a + k /\ 0 <= k < size_of [d].
Proof. exact every_cut. Qed.
(** page_length tells whether all is there; if it is longer, something is missing, were it only the spaces after the vendor
    in a T10 designator that has nothing else. *)
Theorem C117_told : forall T tgt who next (sys : system T), one_of_four sys -> identifies tgt who next ->
  forall alloc t s s' v, idle sys s t -> 4 <= alloc < 2 ^ 16 ->
  sync_wait_ends (coroutine (os_of sys tgt) (identify alloc)) s s' (shown (Ok v)) ->
  exists n, attribute_of "page_length" v = Some (PInt n) /\ (4 + n <= alloc -> v = whole_page (who t)) /\
    (alloc < 4 + n -> v <> whole_page (who t) \/ exists info vendor, In (Designator info (T10 vendor [])) (i_designators (who t))).
Proof.
  intros T tgt who next sys F D alloc t s s' v Hi A R. apply (told alloc); [apply (id_conforms _ _ _ D)|lia|].
  exact (identify_only T tgt who next D sys F alloc t s s' v Hi A R).
Qed.

(** ** Asking for the length first *)

Theorem C117_fetch : forall T tgt who next (sys : system T), one_of_four sys -> identifies tgt who next ->
  forall t s, idle sys s t -> size_of (i_designators (who t)) <= 65531 ->
  size_of (i_designators (who (next t))) <= size_of (i_designators (who t)) ->
  exists s', sync_wait_ends (coroutine (os_of sys tgt) identify_all) s s' (shown (Ok (whole_page (who (next t))))) /\ idle sys s' (next (next t)).
Proof.
  intros T tgt who next sys F D t s Hi L M. pose proof (all_run T tgt who next D sys F t s Hi L) as X.
  rewrite seen_all in X by (try apply (id_conforms _ _ _ D); lia). exact X.
Qed.
(** So a program that fetches the pages over two paths takes them for the same exactly if they are. *)
Theorem C117_paths : forall T1 tgt1 who1 next1 (sys1 : system T1) T2 tgt2 who2 next2 (sys2 : system T2),
  one_of_four sys1 -> one_of_four sys2 -> identifies tgt1 who1 next1 -> identifies tgt2 who2 next2 ->
  forall a b t1 s1 t2 s2, idle sys1 s1 t1 -> idle sys2 s2 t2 -> (forall t, who1 t = a) -> (forall t, who2 t = b) ->
  size_of (i_designators a) <= 65531 -> size_of (i_designators b) <= 65531 ->
  exists s1' s2' v1 v2, sync_wait_ends (coroutine (os_of sys1 tgt1) identify_all) s1 s1' (shown (Ok v1)) /\
    sync_wait_ends (coroutine (os_of sys2 tgt2) identify_all) s2 s2' (shown (Ok v2)) /\ (v1 = v2 <-> a = b).
Proof.
  intros T1 tgt1 who1 next1 sys1 T2 tgt2 who2 next2 sys2 F1 F2 D1 D2 a b t1 s1 t2 s2 H1 H2 W1 W2 L1 L2.
  destruct (C117_fetch _ _ _ _ _ F1 D1 t1 s1 H1) as (s1' & R1 & _); [rewrite W1; exact L1|rewrite !W1; lia|].
  destruct (C117_fetch _ _ _ _ _ F2 D2 t2 s2 H2) as (s2' & R2 & _); [rewrite W2; exact L2|rewrite !W2; lia|].
  rewrite W1 in R1. rewrite W2 in R2. exists s1', s2', (whole_page a), (whole_page b). split; [exact R1|]. split; [exact R2|]. apply C117_same_page.
Qed.

(** ** DeviceIdentificationVPDPageCommand asks for 252 bytes only *)

(** Two disks with different SCSI names that look the same. *)
Definition long_name (last : Z) : identity :=
  Identity 0 0 [Designator (DesignatorInfo 1 0 0 0) (NaaRegistered 7613 4660); Designator (DesignatorInfo 3 0 0 0) (ScsiName (repeat 97 235 ++ [last]))].
Theorem C117_confused_refuted : exists a b, identity_ok a /\ identity_ok b /\ a <> b /\
  forall T tgt1 tgt2 next1 next2 (sys : system T), one_of_four sys -> identifies tgt1 (fun _ => a) next1 -> identifies tgt2 (fun _ => b) next2 ->
  forall t1 s1 t2 s2, idle sys s1 t1 -> idle sys s2 t2 ->
  exists s1' s2' v, sync_wait_ends (coroutine (os_of sys tgt1) (Do (vpd_command 131) finish)) s1 s1' (shown (Ok v)) /\
    sync_wait_ends (coroutine (os_of sys tgt2) (Do (vpd_command 131) finish)) s2 s2' (shown (Ok v)).
Proof.
  assert (OK : forall x, 0 <= x < 256 -> identity_ok (long_name x)).
  { intros x X. split; [vm_compute; split; congruence|]. split; [vm_compute; split; congruence|]. split.
    - unfold long_name; cbn [i_designators]. repeat apply Forall_cons; [| |constructor].
      + unfold designator_ok, info_ok, identifier_ok, below. repeat split; try (vm_compute; congruence). repeat constructor; vm_compute; congruence.
      + unfold designator_ok, info_ok, identifier_ok, below. repeat split; try (vm_compute; congruence).
        apply Forall_app. split; [apply Forall_forall; intros y I; apply repeat_spec in I; subst; unfold byte_ok; lia|repeat constructor; lia].
    - vm_compute. reflexivity. }
  exists (long_name 98), (long_name 99). split; [apply OK; lia|]. split; [apply OK; lia|]. split.
  { intro X. apply (f_equal (fun i => map (fun d => last (id_bytes (d_id d)) 0) (i_designators i))) in X. discriminate X. }
  intros T tgt1 tgt2 next1 next2 sys F D1 D2 t1 s1 t2 s2 H1 H2.
  destruct (C117_cut_text _ _ _ _ _ F D1 [Designator (DesignatorInfo 1 0 0 0) (NaaRegistered 7613 4660)] _ [] 232%nat t1 s1 H1 eq_refl eq_refl)
    as (s1' & R1 & _); [vm_compute; lia|vm_compute; reflexivity|].
  destruct (C117_cut_text _ _ _ _ _ F D2 [Designator (DesignatorInfo 1 0 0 0) (NaaRegistered 7613 4660)] _ [] 232%nat t2 s2 H2 eq_refl eq_refl)
    as (s2' & R2 & _); [vm_compute; lia|vm_compute; reflexivity|].
  exists s1', s2', (page_with (long_name 98) (map designator_object [Designator (DesignatorInfo 1 0 0 0) (NaaRegistered 7613 4660)] ++
    [cut_object 232 (Designator (DesignatorInfo 3 0 0 0) (ScsiName (repeat 97 235 ++ [98])))])).
  split; [exact R1|exact R2].
Qed.
(** A disk with one identifier more, of which none is shown any more. *)
Theorem C117_unreadable_refuted : exists a, identity_ok a /\
  forall T tgt next (sys : system T), one_of_four sys -> identifies tgt (fun _ => a) next ->
  forall t s, idle sys s t ->
  exists s', sync_wait_ends (coroutine (os_of sys tgt) (Do (vpd_command 131) finish)) s s' (Threw EInstruct) /\ idle sys s' (next t).
Proof.
  set (n := Designator (DesignatorInfo 1 0 0 0) (NaaRegistered 7613 4660)).
  assert (N : designator_ok n).
  { unfold designator_ok, info_ok, identifier_ok, below. repeat split; try (vm_compute; congruence). repeat constructor; vm_compute; congruence. }
  exists (Identity 0 0 (repeat n 21)). split.
  - split; [vm_compute; split; congruence|]. split; [vm_compute; split; congruence|]. split; [|vm_compute; reflexivity].
    apply Forall_forall. intros d I. apply repeat_spec in I. subst. exact N.
  - intros T tgt next sys F D t s Hi.
    destruct (C117_cut_number _ _ _ _ _ F D (repeat n 20) n [] 8 t s Hi eq_refl) as (s' & R & Hi');
      [vm_compute; split; reflexivity|left; reflexivity|vm_compute; reflexivity|].
    exists s'. split; [exact R|exact Hi'].
Qed.

(** ** Examples *)

Definition example_target (who : identity) : target unit := fun t cdb _ =>
  (t, match interpret cdb with Some (OpInquiry 1 131 alloc) => good (firstn (Z.to_nat alloc) (page_of who)) | _ => good [] end).
Example C117_device_example : forall who, identity_ok who -> identifies (example_target who) (fun _ => who) (fun t => t).
Proof. intros who W. split; [intro t; exact W|]. intros t cdb data alloc I. unfold example_target. rewrite I. reflexivity. Qed.
Definition example_disk : identity :=
  Identity 0 0 [Designator (DesignatorInfo 1 0 0 0) (NaaRegistered 7613 4660); Designator (DesignatorInfo 2 0 0 0) (T10 [73; 66; 77] [49; 50; 51]);
                Designator (DesignatorInfo 1 5 1 1) (RelativePort 2)].
Example C117_disk_example : identity_ok example_disk /\ size_of (i_designators example_disk) = 35.
Proof.
  split; [|reflexivity]. split; [vm_compute; split; congruence|]. split; [vm_compute; split; congruence|]. split; [|vm_compute; reflexivity].
  unfold example_disk; cbn [i_designators]. repeat apply Forall_cons; [| | |constructor];
    unfold designator_ok, info_ok, identifier_ok, below; repeat split; try (vm_compute; congruence); try (repeat constructor; vm_compute; congruence).
  intros (r & b & E & C). destruct r as [|? [|? [|? [|? r]]]]; try discriminate E. cbn in E. injection E as _ _ E. lia.
Qed.
Definition example_run (p : prog) :=
  match sync_wait 200 (coroutine (os_of (linux_system unit 3000) (example_target example_disk)) p) (executer_init 1 (LinuxWorld [] (tt, []) None)) with
  | Some (_, out) => Some out
  | None => None
  end.
Example C117_idle_example : idle (linux_system unit 3000) (executer_init 1 (LinuxWorld [] (tt, []) None)) tt.
Proof. repeat split; cbn; try lia; eauto. Qed.
Example C117_run_example :
  example_run (identify 39) = Some (shown (Ok (whole_page example_disk))) /\
  example_run (Do (vpd_command 131) finish) = Some (shown (Ok (whole_page example_disk))) /\
  example_run identify_all = Some (shown (Ok (whole_page example_disk))) /\
  example_run (identify 16) = Some (shown (Ok (page_with example_disk (map designator_object (firstn 1 (i_designators example_disk)))))) /\
  example_run (identify 15) = Some (shown (Err EInstruct)) /\ example_run (identify 38) = Some (shown (Err EInstruct)) /\
  example_run (identify 18) = Some (shown (Err EInstruct)) /\
  example_run (identify 22) = Some (shown (Ok (page_with example_disk
    (map designator_object (firstn 1 (i_designators example_disk)) ++ [cut_object 2 (Designator (DesignatorInfo 2 0 0 0) (T10 [73; 66; 77] [49; 50; 51]))])))) /\
  cut_object 2 (Designator (DesignatorInfo 2 0 0 0) (T10 [73; 66; 77] [49; 50; 51])) =
  PObj "T10VendorIDDesignator"
    [("code_set", PInt 2); ("protocol_identifier", PInt 0); ("designator_type", PInt 1); ("association", PInt 0); ("piv", PInt 0);
     ("reserved", PInt 0); ("designator_length", PInt 11); ("t10_vendor_identification", PBytes [73; 66]); ("vendor_specific_identifier", PBytes [])].
Proof. vm_compute. repeat split. Qed.

Print Assumptions C117_all_fit.
Print Assumptions C117_same_page.
Print Assumptions C117_found.
Print Assumptions C117_missing.
Print Assumptions C117_cut_number.
Print Assumptions C117_cut_text.
Print Assumptions C117_every_cut.
Print Assumptions C117_told.
Print Assumptions C117_fetch.
Print Assumptions C117_paths.
Print Assumptions C117_confused_refuted.
Print Assumptions C117_unreadable_refuted.
