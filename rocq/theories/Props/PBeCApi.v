(** C80: the C functions on a big-endian machine. *)
From Verif Require Import Base.Bytes Base.Res Model.Color565 Model.Kernel Model.Transform Model.Auto Model.Builders Model.CApi Model.BigEndian Model.BeTransform Model.BeFiles Model.BeCApi.
From Verif Require Import Spec.Layout Spec.Estimator Spec.Files Spec.CApi Spec.BigEndian Spec.BeFiles Spec.BeCApi Proofs.BundleFacts Proofs.BigEndianFacts Proofs.CApiFacts Proofs.CApiHistory
  Proofs.BeCApi Proofs.BeCApiHistory Props.Cases.
Open Scope string_scope.
Open Scope list_scope.
Open Scope Z_scope.

Definition console := big_endian_cpu true x5a.
Definition plenty := Env (2 ^ 32 - 1) (fun _ => true).
(** an estimator in C: the sum of the bytes, failing on the call number [f] *)
Definition summing (f : Z) : c_estimator Z :=
  CEstimator (fun st n => (if st =? f then 7 else 0, Some n, st + 1))
    (fun st d _ => (if st =? f then 7 else 0, Some (fold_right Z.add 0 (map b2z d)), st + 1)).
Definition with_builder := Heap [Some (ManualBuilder (Settings V3 true))] [Some (CAutoBuilder (summing 100) true)].

(** A null pointer gives the documented code, the first check winning, and
    changes nothing. *)
Theorem C80_manual_null_pointers : forall (St : Type) (k : codec) (c : cfg) (h : heap St) (input : option (list byte)) (input_len : Z)
    (output : option (list byte)) (output_len : Z) (b : handle) (code : Z),
  first_null [(is_null input, 5); (is_null output, 9); (is_null b, 10)] = Some code ->
  (exists e, be_manual_transform_c k c input input_len output output_len b h = Ok (e, output) /\ code_number e = code) /\
  (exists e, be_manual_untransform_c k c input input_len output output_len b h = Ok (e, output) /\ code_number e = code).
Proof. intros St. exact be_manual_nulls. Qed.
Print Assumptions C80_manual_null_pointers.
Example C80_manual_null_pointers_met : first_null [(is_null (Some (texture 16)), 5); (is_null (@None (list byte)), 9); (is_null (@None nat), 10)] = Some 9.
Proof. reflexivity. Qed.

Theorem C80_auto_null_pointers : forall (St : Type) (k : codec) (c : cfg) (v : env) (h : heap St) (b : handle) (data : option (list byte)) (data_len : Z)
    (output : option (list byte)) (output_len : Z) (cell : option handle) (st : St) (code : Z),
  first_null [(is_null b, 11); (is_null data, 5); (is_null output, 9); (is_null cell, 12)] = Some code ->
  exists e, be_auto_transform_c k c v b data data_len output output_len cell h st = Ok (e, output, cell, h, st) /\ code_number e = code.
Proof. intros St. exact be_auto_nulls. Qed.
Print Assumptions C80_auto_null_pointers.
Example C80_auto_null_pointers_met :
  first_null [(is_null (Some 0%nat), 11); (is_null (@None (list byte)), 5); (is_null (@None (list byte)), 9); (is_null (Some (@None nat)), 12)] = Some 5.
Proof. reflexivity. Qed.

Theorem C80_core_null_pointers : forall (k : codec) (c : cfg) (s : settings) (input : option (list byte)) (input_len : Z) (output : option (list byte)) (output_len : Z) (code : Z),
  first_null [(is_null input, 1); (is_null output, 2)] = Some code ->
  (exists e, be_core_transform_c k c s input input_len output output_len = Ok (e, output) /\ core_code_number e = code) /\
  (exists e, be_core_untransform_c k c s input input_len output output_len = Ok (e, output) /\ core_code_number e = code).
Proof. exact be_core_nulls. Qed.
Print Assumptions C80_core_null_pointers.
Example C80_core_null_pointers_met : first_null [(is_null (Some (texture 16)), 1); (is_null (@None (list byte)), 2)] = Some 2.
Proof. reflexivity. Qed.

Theorem C80_core_auto_null_pointers : forall (St : Type) (k : codec) (c : cfg) (v : env) (e : option (c_estimator St)) (all : bool) (data : option (list byte)) (data_len : Z)
    (output : option (list byte)) (output_len : Z) (details : option settings) (st : St) (code : Z),
  first_null [(is_null data, 1); (is_null output, 2); (is_null e, 3); (is_null details, 4)] = Some code ->
  exists x, be_core_transform_auto_c k c v data data_len output output_len e all details st = Ok (x, output, details, st) /\ core_code_number x = code.
Proof. intros St. exact be_core_auto_nulls. Qed.
Print Assumptions C80_core_auto_null_pointers.
Example C80_core_auto_null_pointers_met :
  first_null [(is_null (Some (texture 16)), 1); (is_null (Some (texture 16)), 2); (is_null (Some (summing 2)), 3); (is_null (@None settings), 4)] = Some 4.
Proof. reflexivity. Qed.

(** With no null pointer, buffers as long as said and a builder that exists, a
    transform returns 0, 1 or 2 exactly as the lengths say. On success the output
    holds the big-endian layout of the builder's settings, on failure it is
    unchanged, and in either case everything after is. *)
Theorem C80_manual_transform : forall (St : Type) (k : codec) (d : bool) (j : byte) (h : heap St) (i : list byte) (n : Z) (o : list byte) (m : Z) (b : nat) (mb : manual_builder),
  valid_for i n -> valid_for o m -> lookup (manuals h) b = Ok mb ->
  exists code, be_manual_transform_c k (big_endian_cpu d j) (Some i) n (Some o) m (Some b) h = Ok (code, Some
      (if expected_code (codec_block k) n m =? 0 then be_texture_layout k (mb_settings mb) (firstn (Z.to_nat n) i) ++ skipn (Z.to_nat n) o else o)) /\
    code_number code = expected_code (codec_block k) n m.
Proof. intros. eapply be_manual_c_transform; eauto using big_endian_ok. Qed.
Print Assumptions C80_manual_transform.
(** sixteen of twenty bytes; the last two of the output are not given to the call *)
Example C80_manual_transform_met : let i := texture 20 in let o := repeat xff 18 in
  valid_for i 16 /\ valid_for o 17 /\ lookup (manuals with_builder) 0 = Ok (ManualBuilder (Settings V3 true)) /\
  (match be_manual_transform_c CBc1 console (Some i) 16 (Some o) 17 (Some 0%nat) with_builder with Ok (code, Some o1) => code_number code = 0 /\ o1 <> firstn 16 i ++ [xff; xff] | _ => False end).
Proof. cbv zeta. split; [split; discriminate|]. split; [split; discriminate|]. split; [reflexivity|]. vm_compute. split; [reflexivity|discriminate]. Qed.

Theorem C80_manual_untransform : forall (St : Type) (k : codec) (d : bool) (j : byte) (h : heap St) (i : list byte) (n : Z) (o : list byte) (m : Z) (b : nat) (mb : manual_builder),
  valid_for i n -> valid_for o m -> lookup (manuals h) b = Ok mb ->
  exists code o1, be_manual_untransform_c k (big_endian_cpu d j) (Some i) n (Some o) m (Some b) h = Ok (code, Some o1) /\
    code_number code = expected_code (codec_block k) n m /\
    (code <> Success -> o1 = o) /\
    (code = Success -> exists x, zlen x = n /\ be_texture_layout k (mb_settings mb) x = firstn (Z.to_nat n) i /\ o1 = x ++ skipn (Z.to_nat n) o).
Proof. intros. eapply be_manual_c_untransform; eauto using big_endian_ok. Qed.
Print Assumptions C80_manual_untransform.
(** an output that is too small *)
Example C80_manual_untransform_met : let i := texture 20 in let o := repeat xff 18 in
  valid_for i 16 /\ valid_for o 15 /\ lookup (manuals with_builder) 0 = Ok (ManualBuilder (Settings V3 true)) /\
  (match be_manual_untransform_c CBc2 console (Some i) 16 (Some o) 15 (Some 0%nat) with_builder with Ok (code, Some o1) => code_number code = 2 | _ => False end).
Proof. cbv zeta. split; [split; discriminate|]. split; [split; discriminate|]. split; [reflexivity|]. vm_compute. reflexivity. Qed.

(** The automatic transform: as C33_auto_transform. *)
Theorem C80_auto_transform : forall (St : Type) (k : codec) (d : bool) (j : byte) (v : env) (h : heap St) (i : list byte) (n : Z) (o : list byte) (m : Z) (b : nat)
    (ab : c_auto_builder St) (cell : handle) (st : St),
  valid_for i n -> valid_for o m -> lookup (autos h) b = Ok ab ->
  exists code o1 cell1 h1 st1, be_auto_transform_c k (big_endian_cpu d j) v (Some b) (Some i) n (Some o) m (Some cell) h st = Ok (code, Some o1, Some cell1, h1, st1) /\
    (expected_code (codec_block k) n m <> 0 -> code_number code = expected_code (codec_block k) n m /\ o1 = o /\ st1 = st) /\
    (expected_code (codec_block k) n m = 0 -> code_number code = 0 \/ code_number code = 3 \/ code_number code = 4) /\
    (code_number code = 3 -> exists z, alloc_ok v z = false) /\
    (code_number code = 4 -> estimator_failed (ca_estimator ab)) /\
    (code_number code <> 0 -> cell1 = None /\ h1 = h /\ same_after n o o1) /\
    (code_number code = 0 -> exists s, candidate (ca_use_all ab) (decorrelation_mode s) /\
       o1 = be_texture_layout k s (firstn (Z.to_nat n) i) ++ skipn (Z.to_nat n) o /\
       cell1 = Some (List.length (manuals h)) /\ h1 = Heap (manuals h ++ [Some (ManualBuilder s)]) (autos h)).
Proof. intros. eapply be_auto_c_numbers; eauto using big_endian_ok. Qed.
Print Assumptions C80_auto_transform.
(** the estimator fails on its third call: code 4 and a null handle *)
Example C80_auto_transform_met : let i := texture 16 in let o := repeat xff 20 in let h := Heap [] [Some (CAutoBuilder (summing 2) true)] in
  valid_for i 16 /\ valid_for o 20 /\ lookup (autos h) 0 = Ok (CAutoBuilder (summing 2) true) /\
  (match be_auto_transform_c CBc1 console plenty (Some 0%nat) (Some i) 16 (Some o) 20 (Some (Some 3%nat)) h 0 with
   | Ok (code, Some o1, cell1, h1, st1) => code_number code = 4 /\ cell1 = Some None /\ manuals h1 = [] /\ st1 = 3 | _ => False end).
Proof. cbv zeta. split; [split; discriminate|]. split; [split; discriminate|]. split; [reflexivity|]. vm_compute. split; [reflexivity|]. split; [reflexivity|]. split; reflexivity. Qed.

(** The core crates' functions. *)
Theorem C80_core_transform : forall (k : codec) (d : bool) (j : byte) (s : settings) (i : list byte) (n : Z) (o : list byte) (m : Z),
  valid_for i n -> valid_for o m ->
  exists code, be_core_transform_c k (big_endian_cpu d j) s (Some i) n (Some o) m = Ok (code, Some
      (if expected_code (codec_block k) n m =? 0 then be_texture_layout k s (firstn (Z.to_nat n) i) ++ skipn (Z.to_nat n) o else o)) /\
    core_code_number code = (match expected_code (codec_block k) n m with 1 => 5 | 2 => 6 | _ => 0 end).
Proof. intros. eapply be_core_c_transform; eauto using big_endian_ok. Qed.
Print Assumptions C80_core_transform.
Example C80_core_transform_met : valid_for (texture 20) 16 /\ valid_for (repeat xff 18) 17.
Proof. split; split; discriminate. Qed.

Theorem C80_core_untransform : forall (k : codec) (d : bool) (j : byte) (s : settings) (i : list byte) (n : Z) (o : list byte) (m : Z),
  valid_for i n -> valid_for o m ->
  exists code o1, be_core_untransform_c k (big_endian_cpu d j) s (Some i) n (Some o) m = Ok (code, Some o1) /\
    core_code_number code = (match expected_code (codec_block k) n m with 1 => 5 | 2 => 6 | _ => 0 end) /\
    (code <> CoreSuccess -> o1 = o) /\
    (code = CoreSuccess -> exists x, zlen x = n /\ be_texture_layout k s x = firstn (Z.to_nat n) i /\ o1 = x ++ skipn (Z.to_nat n) o).
Proof. intros. eapply be_core_c_untransform; eauto using big_endian_ok. Qed.
Print Assumptions C80_core_untransform.
Example C80_core_untransform_met : valid_for (texture 20) 12 /\ valid_for (repeat xff 18) 17 /\ expected_code (codec_block CBc1) 12 17 = 1.
Proof. split; [split; discriminate|]. split; [split; discriminate|reflexivity]. Qed.

Theorem C80_core_auto : forall (St : Type) (k : codec) (d : bool) (j : byte) (v : env) (e : c_estimator St) (all : bool) (i : list byte) (n : Z) (o : list byte) (m : Z)
    (old : settings) (st : St),
  valid_for i n -> valid_for o m ->
  exists code o1 s1 st1, be_core_transform_auto_c k (big_endian_cpu d j) v (Some i) n (Some o) m (Some e) all (Some old) st = Ok (code, Some o1, Some s1, st1) /\
    (expected_code (codec_block k) n m <> 0 -> core_code_number code = 4 + expected_code (codec_block k) n m /\ o1 = o /\ st1 = st) /\
    (expected_code (codec_block k) n m = 0 -> core_code_number code = 0 \/ core_code_number code = 7) /\
    (core_code_number code = 7 -> (exists z, alloc_ok v z = false) \/ estimator_failed e) /\
    (core_code_number code <> 0 -> s1 = old /\ same_after n o o1) /\
    (core_code_number code = 0 -> candidate all (decorrelation_mode s1) /\ o1 = be_texture_layout k s1 (firstn (Z.to_nat n) i) ++ skipn (Z.to_nat n) o).
Proof. intros. eapply be_core_c_numbers; eauto using big_endian_ok. Qed.
Print Assumptions C80_core_auto.
(** the search succeeds and reports its settings *)
Example C80_core_auto_met : let i := texture 20 in let o := repeat xff 18 in valid_for i 16 /\ valid_for o 17 /\
  (match be_core_transform_auto_c CBc1 console plenty (Some i) 16 (Some o) 17 (Some (summing 100)) true (Some (Settings V3 true)) 0 with
   | Ok (code, Some o1, Some s1, st1) => core_code_number code = 0 /\ s1 <> Settings V3 true /\ st1 = 9 | _ => False end).
Proof. cbv zeta. split; [split; discriminate|]. split; [split; discriminate|]. vm_compute. split; [reflexivity|]. split; [discriminate|reflexivity]. Qed.

(** What one call wrote, the other restores, on every big-endian machine. *)
Theorem C80_round_trip : forall (St : Type) (k : codec) (d1 d2 : bool) (j1 j2 : byte) (h : heap St) (i : list byte) (n : Z) (o : list byte) (m : Z) (o1 o2 : list byte) (m2 : Z) (b : nat),
  be_manual_transform_c k (big_endian_cpu d1 j1) (Some i) n (Some o) m (Some b) h = Ok (Success, Some o1) -> valid_for o2 m2 -> n <= m2 ->
  be_manual_untransform_c k (big_endian_cpu d2 j2) (Some o1) n (Some o2) m2 (Some b) h = Ok (Success, Some (firstn (Z.to_nat n) i ++ skipn (Z.to_nat n) o2)).
Proof. intros. eapply be_c_round_trip; eauto using big_endian_ok. Qed.
Print Assumptions C80_round_trip.
Example C80_round_trip_met : let i := texture 20 in let o := repeat xff 18 in
  let o1 := match be_manual_transform_c CBc1 console (Some i) 16 (Some o) 17 (Some 0%nat) with_builder with Ok (_, Some o1) => o1 | _ => [] end in
  be_manual_transform_c CBc1 console (Some i) 16 (Some o) 17 (Some 0%nat) with_builder = Ok (Success, Some o1) /\ valid_for (repeat xee 30) 25 /\ 16 <= 25.
Proof. cbv zeta. split; [vm_compute; reflexivity|]. split; [split; discriminate|discriminate]. Qed.

(** The builder an automatic transform returns undoes what it did. *)
Theorem C80_auto_round_trip : forall (St : Type) (k : codec) (d1 d2 : bool) (j1 j2 : byte) (v : env) (h : heap St) (i : list byte) (n : Z) (o : list byte) (m : Z)
    (o1 o2 : list byte) (m2 : Z) (b : nat) (cell cell1 : handle) (h1 : heap St) (st st1 : St),
  be_auto_transform_c k (big_endian_cpu d1 j1) v (Some b) (Some i) n (Some o) m (Some cell) h st = Ok (Success, Some o1, Some cell1, h1, st1) -> valid_for o2 m2 -> n <= m2 ->
  be_manual_untransform_c k (big_endian_cpu d2 j2) (Some o1) n (Some o2) m2 cell1 h1 = Ok (Success, Some (firstn (Z.to_nat n) i ++ skipn (Z.to_nat n) o2)).
Proof. intros. eapply be_c_auto_round_trip; eauto using big_endian_ok. Qed.
Print Assumptions C80_auto_round_trip.
Example C80_auto_round_trip_met : let i := texture 16 in let o := repeat xff 20 in
  (match be_auto_transform_c CBc1 console plenty (Some 0%nat) (Some i) 16 (Some o) 20 (Some None) with_builder 0 with
   | Ok (code, Some o1, Some cell1, h1, st1) => code = Success /\ cell1 = Some 1%nat /\ st1 = 9 | _ => False end) /\ valid_for (repeat xee 30) 25 /\ 16 <= 25.
Proof. cbv zeta. split; [vm_compute; split; [reflexivity|]; split; reflexivity|]. split; [split; discriminate|discriminate]. Qed.

(** After any history of calls, a builder the program holds uses, for each option,
    the last value set since its last reset or its creation; a clone starts from
    its original's values at the time, a builder made by an automatic transform from
    the settings that transform wrote its data with. *)
Theorem C80_last_setting_wins : forall (St : Type) (k : codec) (d : bool) (j : byte) (v : env) (past : @history St) (h : heap St) (st : St),
  be_ran k (big_endian_cpu d j) v past h st ->
  exists found, be_found_right k found past /\
    forall n i len o m, holds past n = true -> valid_for i len -> valid_for o m ->
      (exists code, be_manual_transform_c k (big_endian_cpu d j) (Some i) len (Some o) m (Some n) h = Ok (code, Some
         (if expected_code (codec_block k) len m =? 0 then be_texture_layout k (settings_of found past n) (firstn (Z.to_nat len) i) ++ skipn (Z.to_nat len) o else o)) /\
         code_number code = expected_code (codec_block k) len m) /\
      (exists code o1, be_manual_untransform_c k (big_endian_cpu d j) (Some i) len (Some o) m (Some n) h = Ok (code, Some o1) /\
         code_number code = expected_code (codec_block k) len m /\ (code <> Success -> o1 = o) /\
         (code = Success -> exists x, zlen x = len /\ be_texture_layout k (settings_of found past n) x = firstn (Z.to_nat len) i /\ o1 = x ++ skipn (Z.to_nat len) o)).
Proof. intros. eapply be_last_wins; eauto using big_endian_ok. Qed.
Print Assumptions C80_last_setting_wins.
(** A history with a clone, a reset, a freed builder and a builder from an
    automatic transform, and what it leaves in force. *)
Fixpoint replay (calls : list (c_call Z)) (past : @history Z) (h : heap Z) (st : Z) : option (@history Z * heap Z * Z) :=
  match calls with
  | [] => Some (past, h, st)
  | call :: calls => match be_run_c_call CBc1 console plenty call h st with
                     | Ok (a, h1, st1) => replay calls ((call, a) :: past) h1 st1
                     | _ => None
                     end
  end.
Lemma replay_ran : forall calls past h st past' h' st', be_ran CBc1 console plenty past h st -> replay calls past h st = Some (past', h', st') -> be_ran CBc1 console plenty past' h' st'.
Proof.
  intros calls. induction calls as [|call calls IH]; intros past h st past' h' st' R H; cbn [replay] in H.
  - injection H as <- <- <-. exact R.
  - destruct (be_run_c_call CBc1 console plenty call h st) as [[[a h1] st1]| |] eqn:E; try discriminate.
    refine (IH _ _ _ _ _ _ _ H). exact (be_ran_call _ _ _ _ _ _ _ _ _ _ R E).
Qed.
Definition some_calls : list (c_call Z) :=
  [CNew; CSetMode (Some 0%nat) Variant3; CSetSplit (Some 0%nat) false; CClone (Some 0%nat); CReset (Some 0%nat); CSetSplit (Some 0%nat) false; CSetMode (Some 1%nat) VariantNone;
   CNewAuto (Some (summing 100)); CSetUseAll (Some 0%nat) true; CAutoTransform (Some 0%nat) (Some (texture 16)) 16 (Some (texture 16)) 16 (Some None);
   CNew; CFree (Some 3%nat); CSetMode None Variant2].
Example C80_last_setting_wins_met : exists (past : @history Z) h st, be_ran CBc1 console plenty past h st /\
  map (holds past) [0; 1; 2; 3]%nat = [true; true; true; false] /\ map (holds_auto past) [0; 1]%nat = [true; false] /\
  forall found, map (mode_of found past) [0; 1]%nat = [Variant1; VariantNone] /\ map (split_of found past) [0; 1]%nat = [false; false].
Proof.
  destruct (replay some_calls [] (Heap [] []) 0) as [[[past h] st]|] eqn:E; [|vm_compute in E; discriminate].
  exists past, h, st. split; [exact (replay_ran _ _ _ _ _ _ _ (be_ran_start _ _ _ _) E)|].
  vm_compute in E. injection E as <- <- <-. split; [reflexivity|]. split; [reflexivity|]. intros found. split; reflexivity.
Qed.

(** The options of an automatic builder: as C34_auto_options. *)
Theorem C80_auto_options : forall (St : Type) (k : codec) (d : bool) (j : byte) (v : env) (past : @history St) (h : heap St) (st : St) (n : nat),
  be_ran k (big_endian_cpu d j) v past h st ->
  holds_auto past n = true -> exists e, estimator_of past n = Some e /\
    forall i len o m cell old st0, valid_for i len -> valid_for o m ->
      exists code o1 cell1 h1 st1 code' s1,
        be_auto_transform_c k (big_endian_cpu d j) v (Some n) (Some i) len (Some o) m (Some cell) h st0 = Ok (code, Some o1, Some cell1, h1, st1) /\
        be_core_transform_auto_c k (big_endian_cpu d j) v (Some i) len (Some o) m (Some e) (use_all_of past n) (Some old) st0 = Ok (code', Some o1, Some s1, st1) /\
        (code = Success <-> code' = CoreSuccess) /\
        (code = Success -> exists r, cell1 = Some r /\ forall i2 len2 o2 m2,
           be_manual_untransform_c k (big_endian_cpu d j) i2 len2 o2 m2 (Some r) h1 = 
           (do x <- be_core_untransform_c k (big_endian_cpu d j) s1 i2 len2 o2 m2 ;;
            Ok (match fst x with CoreSuccess => Success | CoreNullDataPointer => NullDataPointer | CoreNullOutputBufferPointer => NullOutputBufferPointer
                | CoreInvalidDataLength => CInvalidLength | _ => COutputBufferTooSmall end, snd x))).
Proof. intros. eapply be_auto_options; eauto using big_endian_ok. Qed.
Print Assumptions C80_auto_options.

(** A program that passes only null or held handles and buffers as long as it
    says never meets undefined behaviour or a panic, not even with an empty texture
    in a debug build. *)
Theorem C80_rules_kept : forall (St : Type) (k : codec) (d : bool) (j : byte) (v : env) (past : @history St) (h : heap St) (st : St) (call : c_call St),
  be_ran k (big_endian_cpu d j) v past h st ->
  keeps_rules past call -> exists a h1 st1, be_run_c_call k (big_endian_cpu d j) v call h st = Ok (a, h1, st1).
Proof. intros. eapply be_rules_kept; eauto using big_endian_ok. Qed.
Print Assumptions C80_rules_kept.
(** an empty texture, after no calls at all *)
Example C80_rules_kept_met : be_ran CBc1 console plenty [] (Heap [] []) 0 /\ keeps_rules (St := Z) [] (CTransform (Some []) 0 (Some []) 0 None).
Proof. split; [constructor|]. cbn. split; [exact Logic.I|]. split; split; discriminate. Qed.

(** Without decorrelation a C program writes the same bytes and gets the same codes
    on both kinds of machine (with it, C66). *)
Theorem C80_same_bytes : forall (St : Type) (k : codec) (c : cfg) (d : bool) (j : byte) (h : heap St) (i : list byte) (n : Z) (o : list byte) (m : Z) (b : nat) (mb : manual_builder),
  supported c -> (c_debug c = true -> n <> 0) -> valid_for i n -> valid_for o m -> lookup (manuals h) b = Ok mb -> decorrelation_mode (mb_settings mb) = VNone ->
  be_manual_transform_c k (big_endian_cpu d j) (Some i) n (Some o) m (Some b) h = manual_transform_c k c (Some i) n (Some o) m (Some b) h.
Proof. exact be_same_bytes. Qed.
Print Assumptions C80_same_bytes.
Example C80_same_bytes_met : let h := Heap (St := unit) [Some (ManualBuilder (Settings VNone true))] [] in
  supported debug_cpu /\ (c_debug debug_cpu = true -> 16 <> 0) /\ valid_for (texture 20) 16 /\ valid_for (repeat xff 18) 17 /\
  lookup (manuals h) 0 = Ok (ManualBuilder (Settings VNone true)) /\ decorrelation_mode (mb_settings (ManualBuilder (Settings VNone true))) = VNone.
Proof. cbv zeta. split; [exact debug_supported|]. split; [discriminate|]. split; [split; discriminate|]. split; [split; discriminate|]. split; reflexivity. Qed.
