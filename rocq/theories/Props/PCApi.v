(** C33 and C34: the C functions of the BC1 and BC2 crates, and the builders. *)
From Verif Require Import Base.Bytes Base.Res Model.Color565 Model.Kernel Model.Transform Model.Auto Model.Builders Model.CApi.
From Verif Require Import Spec.Layout Spec.Estimator Spec.Files Spec.CApi Proofs.CApiFacts Proofs.CApiHistory Proofs.BundleFacts Props.Cases.
Open Scope string_scope.
Open Scope list_scope.
Open Scope Z_scope.

Definition a_pc := Cfg true X86_64 false true true true true true true true x00.
Definition plenty := Env (2 ^ 64 - 1) (fun _ => true).
(** an estimator in C: the sum of the bytes, failing on the call number [f] *)
Definition summing (f : Z) : c_estimator Z :=
  CEstimator (fun st n => (if st =? f then 7 else 0, Some n, st + 1))
    (fun st d _ => (if st =? f then 7 else 0, Some (fold_right Z.add 0 (map b2z d)), st + 1)).
Definition texture := map (fun i => lo8 (i * 37 + 11)) (zseq 0 16).

(** ** C33: error reporting *)

(** A null pointer gives the documented code, the first check winning, and
    changes nothing: not the output, not the builders, not the handle variable. *)
Theorem C33_manual_null_pointers : forall (St : Type) (k : codec) (c : cfg) (h : heap St) (input : option (list byte)) (input_len : Z)
    (output : option (list byte)) (output_len : Z) (b : handle) (code : Z),
  first_null [(is_null input, 5); (is_null output, 9); (is_null b, 10)] = Some code ->
  (exists e, manual_transform_c k c input input_len output output_len b h = Ok (e, output) /\ code_number e = code) /\
  (exists e, manual_untransform_c k c input input_len output output_len b h = Ok (e, output) /\ code_number e = code).
Proof. intros St. exact manual_nulls. Qed.
Print Assumptions C33_manual_null_pointers.
(** two null pointers, the first is reported *)
Example C33_manual_null_pointers_met :
  let St := unit in let k := CBc1 in let c := debug_cpu in let input := Some (Cases.texture 16) in let input_len := 16 in let output := @None (list byte) in let
  output_len := 16 in let b := @None nat in let code := 9 in
  first_null [(is_null input, 5); (is_null output, 9); (is_null b, 10)] = Some code.
Proof. met. Qed.
Theorem C33_auto_null_pointers : forall (St : Type) (k : codec) (c : cfg) (v : env) (h : heap St) (b : handle) (data : option (list byte)) (data_len : Z)
    (output : option (list byte)) (output_len : Z) (cell : option handle) (st : St) (code : Z),
  first_null [(is_null b, 11); (is_null data, 5); (is_null output, 9); (is_null cell, 12)] = Some code ->
  exists e, auto_transform_c k c v b data data_len output output_len cell h st = Ok (e, output, cell, h, st) /\ code_number e = code.
Proof. intros St. exact auto_nulls. Qed.
Print Assumptions C33_auto_null_pointers.
Theorem C33_core_null_pointers : forall (k : codec) (c : cfg) (s : settings) (input : option (list byte)) (input_len : Z) (output : option (list byte)) (output_len : Z) (code : Z),
  first_null [(is_null input, 1); (is_null output, 2)] = Some code ->
  (exists e, core_transform_c k c s input input_len output output_len = Ok (e, output) /\ core_code_number e = code) /\
  (exists e, core_untransform_c k c s input input_len output output_len = Ok (e, output) /\ core_code_number e = code).
Proof. exact core_nulls. Qed.
Print Assumptions C33_core_null_pointers.
(** no output buffer *)
Example C33_core_null_pointers_met :
  let k := CBc1 in let c := debug_cpu in let s := Settings V3 true in let input := Some (Cases.texture 16) in let input_len := 16 in let output := @None (list byte) in
  let output_len := 16 in let code := 2 in
  first_null [(is_null input, 1); (is_null output, 2)] = Some code.
Proof. met. Qed.
Theorem C33_core_auto_null_pointers : forall (St : Type) (k : codec) (c : cfg) (v : env) (e : option (c_estimator St)) (all : bool) (data : option (list byte)) (data_len : Z)
    (output : option (list byte)) (output_len : Z) (details : option settings) (st : St) (code : Z),
  first_null [(is_null data, 1); (is_null output, 2); (is_null e, 3); (is_null details, 4)] = Some code ->
  exists x, core_transform_auto_c k c v data data_len output output_len e all details st = Ok (x, output, details, st) /\ core_code_number x = code.
Proof. intros St. exact core_auto_nulls. Qed.
Print Assumptions C33_core_auto_null_pointers.
(** two null pointers *)
Example C33_auto_null_pointers_example :
  first_null [(is_null (Some 0%nat), 11); (is_null (@None (list byte)), 5); (is_null (@None (list byte)), 9); (is_null (Some (@None nat)), 12)] = Some 5.
Proof. reflexivity. Qed.

(** With no null pointer, buffers as long as said and a builder that exists, a
    transform returns 0, 1 or 2 exactly as the lengths say. On success the output
    holds the layout of the builder's settings, on failure it is unchanged, and
    in either case everything after is. *)
Theorem C33_manual_transform : forall (St : Type) (k : codec) (c : cfg) (h : heap St) (i : list byte) (n : Z) (o : list byte) (m : Z) (b : nat) (mb : manual_builder),
  supported c -> (c_debug c = true -> n <> 0) -> valid_for i n -> valid_for o m -> lookup (manuals h) b = Ok mb ->
  exists code, manual_transform_c k c (Some i) n (Some o) m (Some b) h = Ok (code, Some
      (if expected_code (codec_block k) n m =? 0 then texture_layout k (mb_settings mb) (firstn (Z.to_nat n) i) ++ skipn (Z.to_nat n) o else o)) /\
    code_number code = expected_code (codec_block k) n m.
Proof. intros St. exact manual_c_transform. Qed.
Print Assumptions C33_manual_transform.
(** a debug build, sixteen of twenty bytes *)
Example C33_manual_transform_met :
  let St := unit in let k := CBc1 in let c := debug_cpu in let h := Heap (St := unit) [Some (ManualBuilder (Settings V3 true))] [] in let i := Cases.texture 20 in let n
  := 16 in let o := repeat xff 18 in let m := 17 in let b := 0%nat in let mb := ManualBuilder (Settings V3 true) in
  supported c /\ (c_debug c = true -> n <> 0) /\ valid_for i n /\ valid_for o m /\ lookup (manuals h) b = Ok mb.
Proof. met. Qed.
Theorem C33_manual_untransform : forall (St : Type) (k : codec) (c : cfg) (h : heap St) (i : list byte) (n : Z) (o : list byte) (m : Z) (b : nat) (mb : manual_builder),
  supported c -> (c_debug c = true -> n <> 0) -> valid_for i n -> valid_for o m -> lookup (manuals h) b = Ok mb ->
  exists code o1, manual_untransform_c k c (Some i) n (Some o) m (Some b) h = Ok (code, Some o1) /\
    code_number code = expected_code (codec_block k) n m /\
    (code <> Success -> o1 = o) /\
    (code = Success -> exists x, zlen x = n /\ texture_layout k (mb_settings mb) x = firstn (Z.to_nat n) i /\ o1 = x ++ skipn (Z.to_nat n) o).
Proof. intros St. exact manual_c_untransform. Qed.
Print Assumptions C33_manual_untransform.
(** a debug build, sixteen of twenty bytes *)
Example C33_manual_untransform_met :
  let St := unit in let k := CBc1 in let c := debug_cpu in let h := Heap (St := unit) [Some (ManualBuilder (Settings V3 true))] [] in let i := Cases.texture 20 in let n
  := 16 in let o := repeat xff 18 in let m := 17 in let b := 0%nat in let mb := ManualBuilder (Settings V3 true) in
  supported c /\ (c_debug c = true -> n <> 0) /\ valid_for i n /\ valid_for o m /\ lookup (manuals h) b = Ok mb.
Proof. met. Qed.
(** The automatic transform: bad lengths give their codes with nothing changed
    and the estimator not called; otherwise the code is 0, 3 (only if an
    allocation failed) or 4 (only if the estimator returned an error). Whenever it
    is not 0 the handle variable is set to null and no builder is made; when it is
    0, a new builder with the settings found is made and stored there. *)
Theorem C33_auto_transform : forall (St : Type) (k : codec) (c : cfg) (v : env) (h : heap St) (i : list byte) (n : Z) (o : list byte) (m : Z) (b : nat)
    (ab : c_auto_builder St) (cell : handle) (st : St),
  supported c -> (c_debug c = true -> n <> 0) -> valid_for i n -> valid_for o m -> lookup (autos h) b = Ok ab ->
  exists code o1 cell1 h1 st1, auto_transform_c k c v (Some b) (Some i) n (Some o) m (Some cell) h st = Ok (code, Some o1, Some cell1, h1, st1) /\
    (expected_code (codec_block k) n m <> 0 -> code_number code = expected_code (codec_block k) n m /\ o1 = o /\ st1 = st) /\
    (expected_code (codec_block k) n m = 0 -> code_number code = 0 \/ code_number code = 3 \/ code_number code = 4) /\
    (code_number code = 3 -> exists z, alloc_ok v z = false) /\
    (code_number code = 4 -> estimator_failed (ca_estimator ab)) /\
    (code_number code <> 0 -> cell1 = None /\ h1 = h /\ same_after n o o1) /\
    (code_number code = 0 -> exists s, candidate (ca_use_all ab) (decorrelation_mode s) /\
       o1 = texture_layout k s (firstn (Z.to_nat n) i) ++ skipn (Z.to_nat n) o /\
       cell1 = Some (List.length (manuals h)) /\ h1 = Heap (manuals h ++ [Some (ManualBuilder s)]) (autos h)).
Proof. exact auto_c_numbers. Qed.
Print Assumptions C33_auto_transform.
(** the estimator fails on its third call: code 4 and a null handle *)
Example C33_auto_transform_example :
  match auto_transform_c CBc1 a_pc plenty (Some 0%nat) (Some texture) 16 (Some (repeat xff 20)) 20 (Some (Some 3%nat)) (Heap [] [Some (CAutoBuilder (summing 2) true)]) 0 with
  | Ok (code, Some o1, cell1, h1, st1) => code_number code = 4 /\ cell1 = Some None /\ manuals h1 = [] /\ st1 = 3 /\ skipn 16 o1 = repeat xff 4
  | _ => False
  end.
Proof. vm_compute. split; [reflexivity|]. split; [reflexivity|]. split; [reflexivity|]. split; reflexivity. Qed.

(** The comment on this function says the handle variable "will be set to null"
    on error. A null data pointer is an error that leaves it as it was. *)
Theorem C33_auto_null_data_keeps_handle_refuted : exists (h : heap Z) (cell : handle), cell <> None /\
  exists code, auto_transform_c CBc1 a_pc plenty (Some 0%nat) None 16 (Some (repeat xff 20)) 20 (Some cell) h 0 = Ok (code, Some (repeat xff 20), Some cell, h, 0) /\
    code <> Success.
Proof.
  exists (Heap [Some manual_new] [Some (CAutoBuilder (summing 2) true)]), (Some 0%nat). split; [discriminate|].
  exists NullDataPointer. split; [reflexivity|discriminate].
Qed.
Print Assumptions C33_auto_null_data_keeps_handle_refuted.

(** The core crates' functions. *)
Theorem C33_core_transform : forall (k : codec) (c : cfg) (s : settings) (i : list byte) (n : Z) (o : list byte) (m : Z),
  supported c -> (c_debug c = true -> n <> 0) -> valid_for i n -> valid_for o m ->
  exists code, core_transform_c k c s (Some i) n (Some o) m = Ok (code, Some
      (if expected_code (codec_block k) n m =? 0 then texture_layout k s (firstn (Z.to_nat n) i) ++ skipn (Z.to_nat n) o else o)) /\
    core_code_number code = (match expected_code (codec_block k) n m with 1 => 5 | 2 => 6 | _ => 0 end).
Proof. exact core_c_transform. Qed.
Print Assumptions C33_core_transform.
(** a debug build, sixteen of twenty bytes *)
Example C33_core_transform_met :
  let k := CBc1 in let c := debug_cpu in let s := Settings V3 true in let i := Cases.texture 20 in let n := 16 in let o := repeat xff 18 in let m := 17 in
  supported c /\ (c_debug c = true -> n <> 0) /\ valid_for i n /\ valid_for o m.
Proof. met. Qed.
Theorem C33_core_untransform : forall (k : codec) (c : cfg) (s : settings) (i : list byte) (n : Z) (o : list byte) (m : Z),
  supported c -> (c_debug c = true -> n <> 0) -> valid_for i n -> valid_for o m ->
  exists code o1, core_untransform_c k c s (Some i) n (Some o) m = Ok (code, Some o1) /\
    core_code_number code = (match expected_code (codec_block k) n m with 1 => 5 | 2 => 6 | _ => 0 end) /\
    (code <> CoreSuccess -> o1 = o) /\
    (code = CoreSuccess -> exists x, zlen x = n /\ texture_layout k s x = firstn (Z.to_nat n) i /\ o1 = x ++ skipn (Z.to_nat n) o).
Proof. exact core_c_untransform. Qed.
Print Assumptions C33_core_untransform.
(** a debug build, sixteen of twenty bytes *)
Example C33_core_untransform_met :
  let k := CBc1 in let c := debug_cpu in let s := Settings V3 true in let i := Cases.texture 20 in let n := 16 in let o := repeat xff 18 in let m := 17 in
  supported c /\ (c_debug c = true -> n <> 0) /\ valid_for i n /\ valid_for o m.
Proof. met. Qed.
Theorem C33_core_auto : forall (St : Type) (k : codec) (c : cfg) (v : env) (e : c_estimator St) (all : bool) (i : list byte) (n : Z) (o : list byte) (m : Z)
    (old : settings) (st : St),
  supported c -> (c_debug c = true -> n <> 0) -> valid_for i n -> valid_for o m ->
  exists code o1 s1 st1, core_transform_auto_c k c v (Some i) n (Some o) m (Some e) all (Some old) st = Ok (code, Some o1, Some s1, st1) /\
    (expected_code (codec_block k) n m <> 0 -> core_code_number code = 4 + expected_code (codec_block k) n m /\ o1 = o /\ st1 = st) /\
    (expected_code (codec_block k) n m = 0 -> core_code_number code = 0 \/ core_code_number code = 7) /\
    (core_code_number code = 7 -> (exists z, alloc_ok v z = false) \/ estimator_failed e) /\
    (core_code_number code <> 0 -> s1 = old /\ same_after n o o1) /\
    (core_code_number code = 0 -> candidate all (decorrelation_mode s1) /\ o1 = texture_layout k s1 (firstn (Z.to_nat n) i) ++ skipn (Z.to_nat n) o).
Proof. exact core_c_numbers. Qed.
Print Assumptions C33_core_auto.
(** a debug build, sixteen of twenty bytes *)
Example C33_core_auto_met :
  let k := CBc1 in let c := debug_cpu in let s := Settings V3 true in let i := Cases.texture 20 in let n := 16 in let o := repeat xff 18 in let m := 17 in let St := Z in
  let v := plenty in let e := summing 2 in let all := true in let old := Settings V1 true in let st := 0 in
  supported c /\ (c_debug c = true -> n <> 0) /\ valid_for i n /\ valid_for o m.
Proof. met. Qed.

(** Every code has its own number and its own message. *)
Theorem C33_messages : forall (k : codec) (e1 e2 : error_code), error_message k e1 <> "" /\
  (code_number e1 = code_number e2 -> e1 = e2) /\ (error_message k e1 = error_message k e2 -> e1 = e2).
Proof. intros [] [] []; (split; [discriminate|]); split; intros H; (reflexivity || discriminate H). Qed.
Print Assumptions C33_messages.

(** ** Round trips through C *)
Theorem C33_c_round_trip : forall (St : Type) (k : codec) (c1 c2 : cfg) (h : heap St) (i : list byte) (n : Z) (o : list byte) (m : Z) (o1 o2 : list byte) (m2 : Z) (b : nat),
  supported c1 -> supported c2 -> (c_debug c1 = true \/ c_debug c2 = true -> n <> 0) ->
  manual_transform_c k c1 (Some i) n (Some o) m (Some b) h = Ok (Success, Some o1) -> valid_for o2 m2 -> n <= m2 ->
  manual_untransform_c k c2 (Some o1) n (Some o2) m2 (Some b) h = Ok (Success, Some (firstn (Z.to_nat n) i ++ skipn (Z.to_nat n) o2)).
Proof. intros St. exact c_round_trip. Qed.
Print Assumptions C33_c_round_trip.
(** two machines, debug builds *)
Example C33_c_round_trip_met :
  let St := unit in let k := CBc1 in let c1 := debug_cpu in let c2 := slow_cpu in let h := Heap (St := unit) [Some (ManualBuilder (Settings V3 true))] [] in let i :=
  Cases.texture 20 in let n := 16 in let o := repeat xff 18 in let m := 17 in let b := 0%nat in let o1 := match manual_transform_c k c1 (Some i) n (Some o) m (Some b) h
  with Ok (_, Some o1) => o1 | _ => [] end in let o2 := repeat xee 30 in let m2 := 25 in
  supported c1 /\ supported c2 /\ (c_debug c1 = true \/ c_debug c2 = true -> n <> 0) /\ manual_transform_c k c1 (Some i) n (Some o) m (Some b) h = Ok (Success, Some o1)
  /\ valid_for o2 m2 /\ n <= m2 /\ o1 <> i.
Proof. met. Qed.
(** C21 for the C function: the builder it returns undoes what it did. *)
Theorem C21_c_auto_round_trip : forall (St : Type) (k : codec) (c1 c2 : cfg) (v : env) (h : heap St) (i : list byte) (n : Z) (o : list byte) (m : Z)
    (o1 o2 : list byte) (m2 : Z) (b : nat) (cell cell1 : handle) (h1 : heap St) (st st1 : St),
  supported c1 -> supported c2 -> (c_debug c1 = true \/ c_debug c2 = true -> n <> 0) ->
  auto_transform_c k c1 v (Some b) (Some i) n (Some o) m (Some cell) h st = Ok (Success, Some o1, Some cell1, h1, st1) -> valid_for o2 m2 -> n <= m2 ->
  manual_untransform_c k c2 (Some o1) n (Some o2) m2 cell1 h1 = Ok (Success, Some (firstn (Z.to_nat n) i ++ skipn (Z.to_nat n) o2)).
Proof. intros St. exact c_auto_round_trip. Qed.
Print Assumptions C21_c_auto_round_trip.
(** a search that succeeds *)
Example C21_c_auto_round_trip_example :
  match auto_transform_c CBc1 a_pc plenty (Some 0%nat) (Some texture) 16 (Some (repeat xff 20)) 20 (Some None) (Heap [Some manual_new] [Some (CAutoBuilder (summing 100) true)]) 0 with
  | Ok (code, Some o1, cell1, h1, st1) => code = Success /\ cell1 = Some (Some 1%nat) /\ nth_error (manuals h1) 1 = Some (Some (ManualBuilder (Settings VNone false)))
  | _ => False
  end.
Proof. vm_compute. split; [reflexivity|]. split; reflexivity. Qed.

(** ** C34: histories *)

(** After any history of calls, transforming or untransforming through a builder
    the program holds uses, for each option, the last value set since its last
    reset or its creation. A clone starts from its original's values at the time,
    a builder made by an automatic transform from the settings that transform
    wrote its data with. *)
Theorem C34_last_setting_wins : forall (St : Type) (k : codec) (c : cfg) (v : env) (past : @history St) (h : heap St) (st : St),
  supported c -> (c_debug c = true -> no_empty_auto past) -> ran k c v past h st ->
  exists found, found_right k found past /\
    forall n i len o m, holds past n = true -> valid_for i len -> valid_for o m -> (c_debug c = true -> len <> 0) ->
      (exists code, manual_transform_c k c (Some i) len (Some o) m (Some n) h = Ok (code, Some
         (if expected_code (codec_block k) len m =? 0 then texture_layout k (settings_of found past n) (firstn (Z.to_nat len) i) ++ skipn (Z.to_nat len) o else o)) /\
         code_number code = expected_code (codec_block k) len m) /\
      (exists code o1, manual_untransform_c k c (Some i) len (Some o) m (Some n) h = Ok (code, Some o1) /\
         code_number code = expected_code (codec_block k) len m /\ (code <> Success -> o1 = o) /\
         (code = Success -> exists x, zlen x = len /\ texture_layout k (settings_of found past n) x = firstn (Z.to_nat len) i /\ o1 = x ++ skipn (Z.to_nat len) o)).
Proof. intros St. exact last_wins. Qed.
Print Assumptions C34_last_setting_wins.

(** A history with a clone, a reset, a freed builder and a builder from an
    automatic transform, and what it leaves in force. *)
Fixpoint replay (calls : list (c_call Z)) (past : @history Z) (h : heap Z) (st : Z) : option (@history Z * heap Z * Z) :=
  match calls with
  | [] => Some (past, h, st)
  | call :: calls => match run_c_call CBc1 a_pc plenty call h st with
                     | Ok (a, h1, st1) => replay calls ((call, a) :: past) h1 st1
                     | _ => None
                     end
  end.
Lemma replay_ran : forall calls past h st past' h' st', ran CBc1 a_pc plenty past h st -> replay calls past h st = Some (past', h', st') -> ran CBc1 a_pc plenty past' h' st'.
Proof.
  intros calls. induction calls as [|call calls IH]; intros past h st past' h' st' R H; cbn [replay] in H.
  - injection H as <- <- <-. exact R.
  - destruct (run_c_call CBc1 a_pc plenty call h st) as [[[a h1] st1]| |] eqn:E; try discriminate.
    refine (IH _ _ _ _ _ _ _ H). exact (ran_call _ _ _ _ _ _ _ _ _ _ R E).
Qed.
Definition some_calls : list (c_call Z) :=
  [CNew; CSetMode (Some 0%nat) Variant3; CSetSplit (Some 0%nat) false; CClone (Some 0%nat); CReset (Some 0%nat); CSetSplit (Some 0%nat) false; CSetMode (Some 1%nat) VariantNone;
   CNewAuto (Some (summing 100)); CSetUseAll (Some 0%nat) true; CAutoTransform (Some 0%nat) (Some texture) 16 (Some texture) 16 (Some None);
   CNew; CFree (Some 3%nat); CSetMode None Variant2].
Example C34_last_setting_wins_example : exists (past : @history Z) h st, ran CBc1 a_pc plenty past h st /\ no_empty_auto past /\
  map (holds past) [0; 1; 2; 3]%nat = [true; true; true; false] /\ map (holds_auto past) [0; 1]%nat = [true; false] /\
  forall found, map (mode_of found past) [0; 1]%nat = [Variant1; VariantNone] /\ map (split_of found past) [0; 1]%nat = [false; false].
Proof.
  destruct (replay some_calls [] (Heap [] []) 0) as [[[past h] st]|] eqn:E; [|vm_compute in E; discriminate].
  exists past, h, st. split; [exact (replay_ran _ _ _ _ _ _ _ (ran_start _ _ _ _) E)|].
  vm_compute in E. injection E as <- <- <-. split.
  - intros b d n o m cell a H. repeat (destruct H as [H|H]; [injection H; intros; subst; discriminate || (try discriminate H)|]). destruct H.
  - split; [reflexivity|]. split; [reflexivity|]. intros found. split; reflexivity.
Qed.

(** The options of an automatic builder: its transform agrees with the core C
    function given the estimator it was made with and the last value set for
    trying all modes (false before), and the builder it makes agrees with the
    settings the core function reports. *)
Theorem C34_auto_options : forall (St : Type) (k : codec) (c : cfg) (v : env) (past : @history St) (h : heap St) (st : St) (n : nat),
  supported c -> (c_debug c = true -> no_empty_auto past) -> ran k c v past h st ->
  holds_auto past n = true -> exists e, estimator_of past n = Some e /\
    forall i len o m cell old st0, valid_for i len -> valid_for o m -> (c_debug c = true -> len <> 0) ->
      exists code o1 cell1 h1 st1 code' s1,
        auto_transform_c k c v (Some n) (Some i) len (Some o) m (Some cell) h st0 = Ok (code, Some o1, Some cell1, h1, st1) /\
        core_transform_auto_c k c v (Some i) len (Some o) m (Some e) (use_all_of past n) (Some old) st0 = Ok (code', Some o1, Some s1, st1) /\
        (code = Success <-> code' = CoreSuccess) /\
        (code = Success -> exists r, cell1 = Some r /\ forall i2 len2 o2 m2,
           manual_untransform_c k c i2 len2 o2 m2 (Some r) h1 = 
           (do x <- core_untransform_c k c s1 i2 len2 o2 m2 ;;
            Ok (match fst x with CoreSuccess => Success | CoreNullDataPointer => NullDataPointer | CoreNullOutputBufferPointer => NullOutputBufferPointer
                | CoreInvalidDataLength => CInvalidLength | _ => COutputBufferTooSmall end, snd x))).
Proof. intros St. exact auto_options. Qed.
Print Assumptions C34_auto_options.

(** A call that does not set, reset or free a builder leaves it exactly as it
    was, and likewise for automatic builders. *)
Theorem C34_independent : forall (St : Type) (k : codec) (c : cfg) (v : env) (past : @history St) (h : heap St) (st : St) (call : c_call St) (a : answered_with)
    (h1 : heap St) (st1 : St) (n : nat),
  supported c -> (c_debug c = true -> no_empty_auto past) -> ran k c v past h st ->
  run_c_call k c v call h st = Ok (a, h1, st1) -> holds past n = true -> touches call <> Some n ->
  forall i len o m, manual_transform_c k c i len o m (Some n) h1 = manual_transform_c k c i len o m (Some n) h /\
    manual_untransform_c k c i len o m (Some n) h1 = manual_untransform_c k c i len o m (Some n) h.
Proof. intros St. exact independent. Qed.
Print Assumptions C34_independent.
Theorem C34_independent_auto : forall (St : Type) (k : codec) (c : cfg) (v : env) (past : @history St) (h : heap St) (st : St) (call : c_call St) (a : answered_with)
    (h1 : heap St) (st1 : St) (n : nat),
  supported c -> (c_debug c = true -> no_empty_auto past) -> ran k c v past h st ->
  run_c_call k c v call h st = Ok (a, h1, st1) -> holds_auto past n = true -> touches_auto call <> Some n ->
  forall i len o m cell st0, seen_by_caller (auto_transform_c k c v (Some n) i len o m cell h1 st0) = seen_by_caller (auto_transform_c k c v (Some n) i len o m cell h st0).
Proof. intros St. exact independent_auto. Qed.
Print Assumptions C34_independent_auto.

(** A program that passes only null or held handles and buffers as long as it
    says never meets undefined behaviour or a panic. *)
Theorem C34_rules_kept : forall (St : Type) (k : codec) (c : cfg) (v : env) (past : @history St) (h : heap St) (st : St) (call : c_call St),
  supported c -> (c_debug c = true -> no_empty_auto past) -> ran k c v past h st ->
  keeps_rules past call -> (c_debug c = true -> texture_len call <> Some 0) -> exists a h1 st1, run_c_call k c v call h st = Ok (a, h1, st1).
Proof. intros St. exact rules_kept. Qed.
Print Assumptions C34_rules_kept.
(** A handle given out was not in use. *)
Theorem C34_fresh_handles : forall (St : Type) (k : codec) (c : cfg) (v : env) (past : @history St) (h : heap St) (st : St) (call : c_call St) (a : answered_with)
    (h1 : heap St) (st1 : St) (n : nat),
  supported c -> (c_debug c = true -> no_empty_auto ((call, a) :: past)) -> ran k c v past h st ->
  run_c_call k c v call h st = Ok (a, h1, st1) -> new_handle call a = Some n -> holds past n = false /\ holds ((call, a) :: past) n = true.
Proof. intros St. exact fresh_handles. Qed.
Print Assumptions C34_fresh_handles.
(** Making a builder, cloning one that is held, making an automatic builder and
    setting its option always succeed; the handles are not null and not in use. *)
Theorem C34_calls_succeed : forall (St : Type) (k : codec) (c : cfg) (v : env) (past : @history St) (h : heap St) (st : St),
  supported c -> (c_debug c = true -> no_empty_auto past) -> ran k c v past h st ->
  (exists n h1, run_c_call k c v CNew h st = Ok (GaveHandle (Some n), h1, st) /\ holds past n = false) /\
  (forall b, holds past b = true -> exists n h1, run_c_call k c v (CClone (Some b)) h st = Ok (GaveHandle (Some n), h1, st) /\ holds past n = false) /\
  (forall e, exists n h1, run_c_call k c v (CNewAuto (Some e)) h st = Ok (GaveHandle (Some n), h1, st) /\ holds_auto past n = false) /\
  (forall b all, holds_auto past b = true -> exists code h1, run_c_call k c v (CSetUseAll (Some b) all) h st = Ok (GaveCode code, h1, st) /\ code_number code = 0).
Proof. intros St. exact calls_succeed. Qed.
Print Assumptions C34_calls_succeed.
(** Null handles: nothing happens. *)
Theorem C34_null_handles : forall (St : Type) (k : codec) (c : cfg) (v : env) (h : heap St) (st : St) (mode : stable_variant) (split use_all : bool),
  run_c_call k c v (CSetMode None mode) h st = Ok (Nothing, h, st) /\ run_c_call k c v (CSetSplit None split) h st = Ok (Nothing, h, st) /\
  run_c_call k c v (CReset None) h st = Ok (Nothing, h, st) /\ run_c_call k c v (CFree None) h st = Ok (Nothing, h, st) /\
  run_c_call k c v (CClone None) h st = Ok (GaveHandle None, h, st) /\ run_c_call k c v (CNewAuto None) h st = Ok (GaveHandle None, h, st) /\
  run_c_call k c v (CFreeAuto None) h st = Ok (Nothing, h, st) /\ run_c_call k c v (CSetUseAll None use_all) h st = Ok (GaveCode NullBuilderPointer, h, st).
Proof. intros. repeat split. Qed.
Print Assumptions C34_null_handles.

(** The Rust builder after any option calls on a new one. *)
Theorem C34_rust_builder : forall (sets : list option_call),
  get_settings (fold_left set_option sets manual_new) = Settings (to_internal_variant (last_mode sets)) (last_split sets).
Proof. exact rust_builder. Qed.
Print Assumptions C34_rust_builder.
Example C34_rust_builder_example : get_settings (fold_left set_option [SetMode Variant3; SetSplit false; SetMode Variant2] manual_new) = Settings V2 false.
Proof. reflexivity. Qed.

(** The names of the modes mean the same inside and outside. *)
Theorem C34_modes : map to_internal_variant [Variant1; Variant2; Variant3; VariantNone] = [V1; V2; V3; VNone] /\
  map from_internal_variant [V1; V2; V3; VNone] = [Variant1; Variant2; Variant3; VariantNone].
Proof. exact (conj eq_refl eq_refl). Qed.
Print Assumptions C34_modes.

(** The Rust automatic builder: a new one tries the fast candidates, an ultra one
    all, and the last option call counts; the estimator stays. *)
Theorem C34_rust_auto_builder : forall (St Er : Type) (e : estimator St Er) (sets : list bool),
  fold_left auto_use_all sets (auto_new e) = AutoBuilder e (List.last sets false) /\
  fold_left auto_use_all sets (auto_new_ultra e) = AutoBuilder e (List.last sets true).
Proof. exact rust_auto_builder. Qed.
Print Assumptions C34_rust_auto_builder.

(** ** C09-C11 for the automatic transforms *)

(** Whatever the outcome, an automatic transform leaves the bytes after the
    texture's length in the output alone. *)
Theorem C09_bc1_auto_inside : forall (St Er : Type) (c : cfg) (v : env) (e : estimator St Er) (all : bool) (x out : list byte) (st : St)
    (r : result settings (auto_error Er)) (y : list byte) (st' : St),
  cpu_ok c -> (c_debug c = true -> x <> []) -> transform_bc1_auto c v e all x out st = Ok (r, y, st') -> same_after (zlen x) out y.
Proof. intros St Er. exact bc1_auto_inside. Qed.
Print Assumptions C09_bc1_auto_inside.
Theorem C10_bc2_auto_inside : forall (St Er : Type) (c : cfg) (v : env) (e : estimator St Er) (all : bool) (x out : list byte) (st : St)
    (r : result settings (auto_error Er)) (y : list byte) (st' : St),
  cpu_ok c -> (c_avx512bw c = true -> c_avx512vl c = true) -> transform_bc2_auto c v e all x out st = Ok (r, y, st') -> same_after (zlen x) out y.
Proof. intros St Er. exact bc2_auto_inside. Qed.
Print Assumptions C10_bc2_auto_inside.
Theorem C11_bc3_auto_inside : forall (St Er : Type) (c : cfg) (v : env) (e : estimator St Er) (all : bool) (x out : list byte) (st : St)
    (r : result settings3 (auto_error Er)) (y : list byte) (st' : St),
  cpu_ok c -> (c_debug c = true -> x <> []) -> (forall st d n z st', estimate_compressed_size e st d n = (ROk z, st') -> 2 * z <= usize_max v) ->
  transform_bc3_auto c v e all x out st = Ok (r, y, st') -> same_after (zlen x) out y.
Proof. intros St Er. exact bc3_auto_inside. Qed.
Print Assumptions C11_bc3_auto_inside.
