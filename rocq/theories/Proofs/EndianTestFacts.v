(** Facts about the debug-endian commands. *)
From Verif Require Import Base.Bytes Base.Res Model.Color565 Model.Kernel Model.Transform Model.Auto Model.Builders Model.Embed Model.Bundle
  Model.Dds Model.Handlers Model.Inspect Model.Cli Model.EndianTest Spec.Cli Spec.EndianTest Proofs.CliFacts.
From Coq Require Import String ZifyBool ZifyNat.
Open Scope string_scope.
Open Scope list_scope.
Open Scope Z_scope.

Lemma read_file_some : forall f n l b r, read_file f n l = Some (b, r) -> l = b ++ r /\ (b = [] -> l = []).
Proof.
  intros f n l b r. unfold read_file. destruct (reads f n) as [k|]; [|discriminate].
  intros E. injection E as <- <-. split; [symmetry; apply firstn_skipn|].
  destruct l; [reflexivity|]. replace (Z.to_nat (Z.max 1 (Z.min k buffer_size))) with (S (Z.to_nat (Z.max 1 (Z.min k buffer_size)) - 1)) by lia. discriminate.
Qed.

Lemma compare_loop_ok : forall fuel f1 f2 n l1 l2, (List.length l1 < fuel)%nat ->
  exists r, compare_loop fuel f1 f2 n l1 l2 = Ok r /\ (r = ROk true -> l1 = l2).
Proof.
  induction fuel as [|fuel IH]; intros f1 f2 n l1 l2 H; [lia|]. cbn [compare_loop].
  destruct (read_file f1 n l1) as [[b1 r1]|] eqn:E1; [|eexists; split; [reflexivity|discriminate]].
  destruct (read_file f2 n l2) as [[b2 r2]|] eqn:E2; [|eexists; split; [reflexivity|discriminate]].
  destruct (zlen b1 =? zlen b2) eqn:EL; cbn [negb]; [|eexists; split; [reflexivity|discriminate]].
  destruct (list_eq_dec Byte.byte_eq_dec b1 b2) as [EB|]; cbn [negb]; [|eexists; split; [reflexivity|discriminate]].
  destruct (read_file_some _ _ _ _ _ E1) as [S1 N1]. destruct (read_file_some _ _ _ _ _ E2) as [S2 N2]. subst b2.
  destruct (zlen b1 =? 0) eqn:E0.
  - assert (b1 = []) by (destruct b1; [reflexivity|unfold zlen in E0; cbn [List.length] in E0; lia]).
    eexists. split; [reflexivity|]. intros _. rewrite (N1 H0), (N2 H0). reflexivity.
  - destruct (IH f1 f2 (S n) r1 r2) as (r & E & T).
    { subst l1. rewrite app_length in H. unfold zlen in E0. lia. }
    exists r. split; [exact E|]. intros R. rewrite S1, S2, (T R). reflexivity.
Qed.

Lemma compare_files_ok : forall f1 f2, exists r, compare_files f1 f2 = Ok r /\
  (r = ROk true -> exists x, on_disk f1 = Some x /\ on_disk f2 = Some x).
Proof.
  intros f1 f2. unfold compare_files.
  destruct (on_disk f1) as [l1|]; [|eexists; split; [reflexivity|discriminate]].
  destruct (on_disk f2) as [l2|]; [|eexists; split; [reflexivity|discriminate]].
  destruct (size_ok f1 && size_ok f2); cbn [negb]; [|eexists; split; [reflexivity|discriminate]].
  destruct (zlen l1 =? zlen l2); cbn [negb]; [|eexists; split; [reflexivity|discriminate]].
  destruct (can_open f1 && can_open f2); cbn [negb]; [|eexists; split; [reflexivity|discriminate]].
  destruct (compare_loop_ok (S (S (List.length l1))) f1 f2 0 l1 l2 ltac:(lia)) as (r & E & T).
  exists r. split; [exact E|]. intros R. exists l1. rewrite (T R). auto.
Qed.
Lemma compare_files_sound : forall f1 f2, compare_files f1 f2 = Ok (ROk true) -> exists x, on_disk f1 = Some x /\ on_disk f2 = Some x.
Proof. intros f1 f2 H. destruct (compare_files_ok f1 f2) as (r & E & T). rewrite E in H. injection H as ->. apply T. reflexivity. Qed.

Lemma read_well : exists N, (0 < N)%nat /\ forall f n l, reads_well f -> read_file f n l = Some (firstn N l, skipn N l).
Proof.
  exists (Z.to_nat buffer_size). split; [unfold buffer_size; lia|].
  intros f n l (_ & _ & R). destruct (R n) as (k & E & K). unfold read_file. rewrite E.
  replace (Z.max 1 (Z.min k buffer_size)) with buffer_size by (unfold buffer_size; lia). reflexivity.
Qed.
Lemma compare_loop_same : forall fuel f1 f2 n l, (List.length l < fuel)%nat -> reads_well f1 -> reads_well f2 ->
  compare_loop fuel f1 f2 n l l = Ok (ROk true).
Proof.
  destruct read_well as (N & HN & RW).
  induction fuel as [|fuel IH]; intros f1 f2 n l H R1 R2; [lia|]. cbn [compare_loop].
  rewrite !RW by assumption. rewrite Z.eqb_refl. cbn [negb].
  destruct (list_eq_dec Byte.byte_eq_dec _ _) as [_|C]; [|contradiction]. cbn [negb].
  destruct (zlen (firstn N l) =? 0) eqn:E; [reflexivity|].
  apply IH; try assumption. rewrite skipn_length. unfold zlen in E. rewrite firstn_length in E. lia.
Qed.
Lemma compare_loop_verdict : forall fuel f1 f2 n l1 l2, (List.length l1 < fuel)%nat -> reads_well f1 -> reads_well f2 ->
  exists b, compare_loop fuel f1 f2 n l1 l2 = Ok (ROk b).
Proof.
  destruct read_well as (N & HN & RW).
  induction fuel as [|fuel IH]; intros f1 f2 n l1 l2 H R1 R2; [lia|]. cbn [compare_loop].
  rewrite !RW by assumption.
  destruct (negb _); [eexists; reflexivity|]. destruct (negb _); [eexists; reflexivity|].
  destruct (zlen (firstn N l1) =? 0) eqn:E; [eexists; reflexivity|].
  apply IH; try assumption. rewrite skipn_length. unfold zlen in E. rewrite firstn_length in E. lia.
Qed.
Lemma compare_files_complete : forall f1 f2 x y, reads_well f1 -> reads_well f2 -> on_disk f1 = Some x -> on_disk f2 = Some y ->
  exists b, compare_files f1 f2 = Ok (ROk b) /\ (b = true <-> x = y).
Proof.
  intros f1 f2 x y R1 R2 E1 E2.
  assert (A : exists b, compare_files f1 f2 = Ok (ROk b)).
  { unfold compare_files. rewrite E1, E2. destruct R1 as (S1 & O1 & R1), R2 as (S2 & O2 & R2). rewrite S1, S2, O1, O2. cbn [andb negb].
    destruct (negb _); [eexists; reflexivity|]. apply compare_loop_verdict; [lia| |]; repeat split; assumption. }
  destruct A as (b & E). exists b. split; [exact E|]. split.
  - intros ->. destruct (compare_files_sound _ _ E) as (z & A1 & A2). congruence.
  - intros <-. revert E. unfold compare_files. rewrite E1, E2. destruct R1 as (S1 & O1 & R1), R2 as (S2 & O2 & R2). rewrite S1, S2, O1, O2.
    rewrite Z.eqb_refl. cbn [andb negb]. rewrite compare_loop_same; [congruence|lia| |]; repeat split; assumption.
Qed.

Lemma short_reads : exists f1 f2 x, on_disk f1 = Some x /\ on_disk f2 = Some x /\ size_ok f1 = true /\ size_ok f2 = true /\
  can_open f1 = true /\ can_open f2 = true /\ (forall n, reads f1 n <> None /\ reads f2 n <> None) /\
  compare_files f1 f2 = Ok (ROk false).
Proof.
  exists (DiskFile (Some [x01; x02]) true true (fun _ => Some 65536)), (DiskFile (Some [x01; x02]) true true (fun _ => Some 1)), [x01; x02].
  do 6 (split; [reflexivity|]). split; [intros n; split; discriminate|]. vm_compute. reflexivity.
Qed.

(** ** Directories *)

Lemma collect_found : forall t below l, collect_files_recursive below t = ROk l -> l = find_all_files below t.
Proof.
  induction t as [| |es IH] using tree_rec_ind; intros below l H; try discriminate H.
  cbn [collect_files_recursive find_all_files] in *. revert l H. induction es as [|e es IHes]; intros l H.
  - injection H as <-. reflexivity.
  - assert (IH' : forall name sub, In (Some (name, sub)) es -> forall below l, collect_files_recursive below sub = ROk l -> l = find_all_files below sub)
      by (intros name sub Hi; apply (IH name); right; exact Hi).
    destruct e as [[name [|o]]|]; [| |discriminate H]; cbn [flat_map].
    + match type of H with context [match ?g with ROk _ => _ | RErr _ => _ end] => destruct g as [l1|] eqn:E; [|discriminate H] end.
      injection H as <-. cbn [app]. f_equal. apply (IHes IH'). first [exact E|reflexivity].
    + destruct (collect_files_recursive (below ++ [name]) (Folder o)) as [l1|] eqn:E1; [|discriminate H].
      match type of H with context [match ?g with ROk _ => _ | RErr _ => _ end] => destruct g as [l2|] eqn:E; [|discriminate H] end.
      injection H as <-. f_equal; [apply (IH name); [left; reflexivity|exact E1]|apply (IHes IH'); first [exact E|reflexivity]].
Qed.
Lemma collect_readable : forall t below, readable t -> exists l, collect_files_recursive below t = ROk l.
Proof.
  induction t as [| |es IH] using tree_rec_ind; intros below R; try (inversion R; fail).
  cbn [collect_files_recursive]. inversion R as [es' RR EE]. subst es'. clear R. induction es as [|e es IHes].
  - eexists. reflexivity.
  - destruct IHes as (l2 & E2); [intros name sub Hi; apply (IH name); right; exact Hi|intros e' He; apply RR; right; exact He|].
    destruct (RR e (or_introl eq_refl)) as (name & sub & -> & [->|RS]).
    + rewrite E2. eexists. reflexivity.
    + destruct sub as [|o]; [inversion RS|]. destruct (IH name (Folder o) (or_introl eq_refl) (below ++ [name]) RS) as (l1 & E1).
      rewrite E1, E2. eexists. reflexivity.
Qed.

Lemma collect_spec : forall d l, collect_directory_files d = ROk l -> forall r, In r l <-> visible (d_tree d) r.
Proof.
  intros d l H r. apply collect_found in H. subst l. rewrite found_visible. split; [intros (q & -> & V); exact V|intros V; exists r; auto].
Qed.
Lemma collect_nodup : forall d l, real_tree (d_tree d) -> collect_directory_files d = ROk l -> NoDup l.
Proof. intros d l R H. apply collect_found in H. subst l. apply found_nodup. exact R. Qed.

Lemma compare_entries_ok : forall d1 d2 e1 e2, exists r, compare_entries d1 d2 e1 e2 = Ok r /\
  (r = ROk true -> forall p, In p e1 -> In p e2 /\ exists x, on_disk (d_file d1 p) = Some x /\ on_disk (d_file d2 p) = Some x).
Proof.
  intros d1 d2 e1 e2. induction e1 as [|p es IH]; cbn [compare_entries].
  - eexists. split; [reflexivity|]. intros _ p [].
  - destruct (in_dec components_eq_dec p e2) as [I|N]; [|eexists; split; [reflexivity|discriminate]].
    destruct (compare_files_ok (d_file d1 p) (d_file d2 p)) as (r & E & T). rewrite E. cbn [bind].
    destruct r as [[]|e]; [|eexists; split; [reflexivity|discriminate]..].
    destruct IH as (r & E' & T'). exists r. split; [exact E'|]. intros R q [<-|Hq]; [split; [exact I|apply T; reflexivity]|apply (T' R); exact Hq].
Qed.

Lemma compare_directories_total : forall d1 d2, exists r, compare_directories d1 d2 = Ok r.
Proof.
  intros d1 d2. unfold compare_directories.
  destruct (collect_directory_files d1) as [e1|]; [|eexists; reflexivity].
  destruct (collect_directory_files d2) as [e2|]; [|eexists; reflexivity].
  destruct (negb _); [eexists; reflexivity|]. destruct (compare_entries_ok d1 d2 e1 e2) as (r & E & _). exists r. exact E.
Qed.
Lemma compare_directories_sound : forall d1 d2, real_tree (d_tree d1) ->
  compare_directories d1 d2 = Ok (ROk true) -> same_directory d1 d2.
Proof.
  intros d1 d2 R1 H. unfold compare_directories in H.
  destruct (collect_directory_files d1) as [e1|] eqn:E1; [|discriminate H].
  destruct (collect_directory_files d2) as [e2|] eqn:E2; [|discriminate H].
  destruct (zlen e1 =? zlen e2) eqn:EL; cbn [negb] in H; [|discriminate H].
  destruct (compare_entries_ok d1 d2 e1 e2) as (r & E & T). rewrite E in H. injection H as ->. specialize (T eq_refl).
  assert (I : forall p, In p e1 <-> In p e2).
  { intros p. split; [intros Hp; apply T; exact Hp|].
    apply (NoDup_length_incl (collect_nodup _ _ R1 E1)); [unfold zlen in EL; lia|]. intros q Hq. apply T. exact Hq. }
  split.
  - intros r. rewrite <- (collect_spec _ _ E1), <- (collect_spec _ _ E2). apply I.
  - intros r V. apply (collect_spec _ _ E1) in V. apply T. exact V.
Qed.
Lemma compare_directories_complete : forall d1 d2, real_tree (d_tree d1) -> real_tree (d_tree d2) ->
  readable (d_tree d1) -> readable (d_tree d2) -> (forall p, reads_well (d_file d1 p)) -> (forall p, reads_well (d_file d2 p)) ->
  same_directory d1 d2 -> compare_directories d1 d2 = Ok (ROk true).
Proof.
  intros d1 d2 T1 T2 R1 R2 W1 W2 (SV & SC). unfold compare_directories.
  destruct (collect_readable _ [] R1) as (e1 & E1). destruct (collect_readable _ [] R2) as (e2 & E2).
  unfold collect_directory_files. rewrite E1, E2.
  assert (I : forall p, In p e1 <-> In p e2) by (intros p; rewrite (collect_spec d1 e1 E1), (collect_spec d2 e2 E2); apply SV).
  assert (L : List.length e1 = List.length e2).
  { apply Nat.le_antisymm; apply NoDup_incl_length; [exact (collect_nodup d1 e1 T1 E1)|intros p Hp; apply I; exact Hp|exact (collect_nodup d2 e2 T2 E2)|intros p Hp; apply I; exact Hp]. }
  replace (zlen e1 =? zlen e2) with true by (unfold zlen; lia). cbn [negb].
  assert (V : forall p, In p e1 -> visible (d_tree d1) p) by (intros p Hp; apply (collect_spec d1 e1 E1); exact Hp).
  assert (I2 : forall p, In p e1 -> In p e2) by (intros p; apply I).
  clear - V I2 W1 W2 SC. induction e1 as [|p es IH]; [reflexivity|]. cbn [compare_entries].
  destruct (in_dec components_eq_dec p e2) as [_|N]; [|exfalso; apply N; apply I2; left; reflexivity].
  destruct (SC p (V p (or_introl eq_refl))) as (x & A & B).
  destruct (compare_files_complete _ _ _ _ (W1 p) (W2 p) A B) as (b & E & Q). rewrite E. cbn [bind].
  replace b with true by (symmetry; apply Q; reflexivity). apply IH; intros q Hq; [apply V|apply I2]; right; exact Hq.
Qed.

(** ** The command *)

Lemma single_sound : forall le be f r, real_machine le ->
  run_single_endian_test le be f = Ok (ROk r) -> is_success r = true -> machines_agree le be f.
Proof.
  intros le be f r (RT & RU) H S. unfold run_single_endian_test in H.
  destruct (run_transform le f) as [[tl dl]|] eqn:E1; [|discriminate H].
  destruct (run_transform be f) as [[tb db]|] eqn:E2; [|discriminate H].
  destruct tl; cbn [andb] in H; [|injection H as <-; discriminate S].
  destruct tb; cbn [andb] in H; [|injection H as <-; discriminate S].
  destruct (compare_directories_total dl db) as (same & EC). rewrite EC in H. cbn [bind] in H. destruct same as [same|]; [|discriminate H].
  destruct (run_untransform le dl) as [[ul rl]|] eqn:E3; [|discriminate H].
  destruct (run_untransform be db) as [[ub rb]|] eqn:E4; [|discriminate H].
  destruct ul; cbn [andb] in H; [|injection H as <-; discriminate S].
  destruct ub; cbn [andb] in H; [|injection H as <-; discriminate S].
  destruct (compare_directories_total rl rb) as (same2 & EC2). rewrite EC2 in H. cbn [bind] in H. destruct same2 as [same2|]; [|discriminate H].
  injection H as <-. unfold is_success in S. cbn [transform_success untransform_success files_identical andb] in S.
  destruct same; [|discriminate S]. destruct same2; [|discriminate S].
  exists dl, db, rl, rb. do 2 (split; [first [reflexivity|assumption]|]).
  split; [apply compare_directories_sound; [exact (RT _ _ _ E1)|exact EC]|]. do 2 (split; [assumption|]).
  apply compare_directories_sound; [exact (RU _ _ _ E3)|exact EC2].
Qed.
Lemma single_complete : forall le be f, real_machine le -> real_machine be -> quiet_machine le -> quiet_machine be ->
  machines_agree le be f -> exists r, run_single_endian_test le be f = Ok (ROk r) /\ is_success r = true.
Proof.
  intros le be f (RT & RU) (RT' & RU') (QT & QU) (QT' & QU') (dl & db & rl & rb & E1 & E2 & S1 & E3 & E4 & S2).
  unfold run_single_endian_test. rewrite E1, E2. cbn [andb].
  rewrite (compare_directories_complete dl db) by first [exact (RT _ _ _ E1)|exact (RT' _ _ _ E2)|apply (QT _ _ _ E1)|apply (QT' _ _ _ E2)|exact S1].
  cbn [bind]. rewrite E3, E4. cbn [andb].
  rewrite (compare_directories_complete rl rb) by first [exact (RU _ _ _ E3)|exact (RU' _ _ _ E4)|apply (QU _ _ _ E3)|apply (QU' _ _ _ E4)|exact S2].
  cbn [bind andb]. eexists. split; reflexivity.
Qed.

Lemma all_results : forall le be files rs, run_all_endian_tests le be files = Ok (ROk rs) ->
  Forall2 (fun f r => run_single_endian_test le be f = Ok (ROk r)) files rs.
Proof.
  intros le be files. induction files as [|f fs IH]; intros rs H; cbn [run_all_endian_tests] in H; [injection H as <-; constructor|].
  destruct (run_single_endian_test le be f) as [[r|]| |] eqn:E; try discriminate H. cbn [bind] in H.
  destruct (run_all_endian_tests le be fs) as [[rs1|]| |] eqn:E2; try discriminate H. cbn [bind] in H. injection H as <-.
  constructor; [exact E|]. apply IH. reflexivity.
Qed.
Lemma filter_all : forall {A} (p : A -> bool) l, List.length (filter p l) = List.length l -> forall x, In x l -> p x = true.
Proof.
  intros A p l. induction l as [|a l IH]; intros H x; [intros []|]. cbn [filter] in H.
  assert (L : (List.length (filter p l) <= List.length l)%nat).
  { clear. induction l as [|a l IH]; [reflexivity|]. cbn [filter]. destruct (p a); cbn [List.length]; lia. }
  destruct (p a) eqn:E; cbn [List.length] in H; [|lia]. intros [<-|Hx]; [exact E|apply IH; [lia|exact Hx]].
Qed.
Lemma filter_true : forall {A} (p : A -> bool) l, (forall x, In x l -> p x = true) -> filter p l = l.
Proof. intros A p l. induction l as [|a l IH]; intros H; [reflexivity|]. cbn [filter]. rewrite H by (left; reflexivity). f_equal. apply IH. intros. apply H. right. assumption. Qed.

Lemma report_spec : forall rs, report_results rs = ROk tt <-> forall r, In r rs -> is_success r = true.
Proof.
  intros rs. unfold report_results. split.
  - destruct (zlen (filter is_success rs) =? zlen rs) eqn:E; [|discriminate]. intros _. apply filter_all. unfold zlen in E. lia.
  - intros H. rewrite filter_true by exact H. rewrite Z.eqb_refl. reflexivity.
Qed.
Lemma command_sound : forall le be files, real_machine le ->
  handle_debug_command le be files = Ok (ROk tt) -> forall f, In f files -> machines_agree le be f.
Proof.
  intros le be files R H. unfold handle_debug_command in H.
  destruct (run_all_endian_tests le be files) as [[rs|]| |] eqn:E; try discriminate H. cbn [bind] in H. injection H as H.
  pose proof (proj1 (report_spec rs) H) as S. clear H. apply all_results in E.
  induction E as [|f r fs rs E1 E IH]; intros g; [intros []|]. intros [<-|Hg].
  - apply (single_sound le be f r R E1). apply S. left. reflexivity.
  - apply IH; [|exact Hg]. intros x Hx. apply S. right. exact Hx.
Qed.
Lemma command_complete : forall le be files, real_machine le -> real_machine be -> quiet_machine le -> quiet_machine be ->
  (forall f, In f files -> machines_agree le be f) -> handle_debug_command le be files = Ok (ROk tt).
Proof.
  intros le be files R1 R2 Q1 Q2 H. unfold handle_debug_command.
  assert (A : exists rs, run_all_endian_tests le be files = Ok (ROk rs) /\ forall r, In r rs -> is_success r = true).
  { induction files as [|f fs IH]; [exists []; split; [reflexivity|intros r []]|]. cbn [run_all_endian_tests].
    destruct (single_complete le be f R1 R2 Q1 Q2 (H f (or_introl eq_refl))) as (r & E & S). rewrite E. cbn [bind].
    destruct IH as (rs & E2 & S2); [intros g Hg; apply H; right; exact Hg|]. rewrite E2. cbn [bind]. eexists. split; [reflexivity|].
    intros q [<-|Hq]; [exact S|apply S2; exact Hq]. }
  destruct A as (rs & E & S). rewrite E. cbn [bind]. rewrite (proj2 (report_spec rs) S). reflexivity.
Qed.

(** ** The settings that are tried *)

Section Transform.
Context {St Er : Type}.
Lemma first_settings : forall (ext : path -> option string) (hs : list (handler (bundle St Er) St)) o build input output fs w h fs1 w1,
  transform_file_with_multiple_handlers ext (o VariantNone false) hs input output (build VariantNone false) fs w = Ok (ROk h, fs1, w1) ->
  test_all_combinations ext hs o build input output fs w = Ok (ROk tt, fs1, w1).
Proof.
  intros ext hs o build input output fs w h fs1 w1 E. unfold test_all_combinations.
  change combinations with ((VariantNone, false) :: tl combinations). cbn [test_combinations]. rewrite E. reflexivity.
Qed.
End Transform.

Lemma single_total : forall le be f, exists r, run_single_endian_test le be f = Ok r.
Proof.
  intros le be f. unfold run_single_endian_test.
  destruct (run_transform le f) as [[tl dl]|]; [|eexists; reflexivity].
  destruct (run_transform be f) as [[tb db]|]; [|eexists; reflexivity].
  destruct (tl && tb); [|eexists; reflexivity].
  destruct (compare_directories_total dl db) as (same & ->). cbn [bind]. destruct same as [same|]; [|eexists; reflexivity].
  destruct (run_untransform le dl) as [[ul rl]|]; [|eexists; reflexivity].
  destruct (run_untransform be db) as [[ub rb]|]; [|eexists; reflexivity].
  destruct (ul && ub); [|eexists; reflexivity].
  destruct (compare_directories_total rl rb) as (same2 & ->). cbn [bind]. destruct same2; eexists; reflexivity.
Qed.
Lemma command_total : forall le be files, exists r, handle_debug_command le be files = Ok r.
Proof.
  intros le be files. unfold handle_debug_command.
  assert (A : exists r, run_all_endian_tests le be files = Ok r).
  { induction files as [|f fs (r & IH)]; [eexists; reflexivity|]. cbn [run_all_endian_tests].
    destruct (single_total le be f) as (q & ->). cbn [bind]. destruct q; [|eexists; reflexivity]. rewrite IH. cbn [bind]. eexists. reflexivity. }
  destruct A as (r & ->). cbn [bind]. eexists. reflexivity.
Qed.

(** A machine that leaves one file, [content f], for every file given, and one
    file when restoring. *)
Definition one_file (x : list byte) : directory :=
  Directory (Folder (Some [Some ("file.dds"%string, Leaf)])) (fun _ => DiskFile (Some x) true true (fun _ => Some 65536)).
Definition toy_machine (content : list byte -> list byte) : machine :=
  Machine (fun f => ROk (true, one_file (content f)))
    (fun d => ROk (true, one_file (match on_disk (d_file d ["file.dds"%string]) with Some x => content x | None => [] end))).
Lemma one_file_real : forall x, real_tree (d_tree (one_file x)).
Proof.
  intros x. cbn. constructor; cbn.
  - constructor; [intros []|constructor].
  - constructor; [|constructor]. split; [discriminate|]. cbn. repeat split; discriminate.
  - intros n t [E|[]]. injection E as <- <-. constructor.
Qed.
Lemma one_file_readable : forall x, readable (d_tree (one_file x)).
Proof. intros x. constructor. intros e [<-|[]]. eexists. eexists. split; [reflexivity|]. left. reflexivity. Qed.
Lemma same_one_file : forall x, same_directory (one_file x) (one_file x).
Proof. intros x. split; [intros r; reflexivity|]. intros r _. exists x. split; reflexivity. Qed.

Lemma toy_real : forall content, real_machine (toy_machine content).
Proof. intros content. split; intros ? ok d E; injection E as <- <-; apply one_file_real. Qed.
Lemma toy_quiet : forall content, quiet_machine (toy_machine content).
Proof.
  intros content. split; intros ? ok d E; injection E as <- <-; (split; [apply one_file_readable|]);
    intros p; repeat split; intros n; exists 65536; split; reflexivity || discriminate.
Qed.
Lemma toy_agree : forall content f, machines_agree (toy_machine content) (toy_machine content) f.
Proof.
  intros content f. do 4 eexists. split; [reflexivity|]. split; [reflexivity|]. split; [apply same_one_file|].
  split; [reflexivity|]. split; [reflexivity|]. apply same_one_file.
Qed.

Section Single.
Context {St Er : Type}.
Lemma first_bc1 : forall (ext : path -> option string) (hs : list (handler (bundle St Er) St)) inspectors o0 o input output fs w h fs1 w1,
  get_transform_format ext o0 input inspectors AllFormats fs = Ok (ROk (Some FBc1)) ->
  transform_file_with_multiple_handlers ext (o VariantNone false) hs input output
    (with_bc1_manual bundle_new (manual_split_colour_endpoints (manual_decorrelation_mode manual_new VariantNone) false)) fs w = Ok (ROk h, fs1, w1) ->
  handle_transform_single_file ext hs inspectors o0 o input output fs w = Ok (ROk tt, fs1, w1).
Proof.
  intros ext hs inspectors o0 o input output fs w h fs1 w1 E1 E2. unfold handle_transform_single_file. rewrite E1. cbn [bind].
  eapply first_settings. exact E2.
Qed.
Lemma first_bc2 : forall (ext : path -> option string) (hs : list (handler (bundle St Er) St)) inspectors o0 o input output fs w h fs1 w1,
  get_transform_format ext o0 input inspectors AllFormats fs = Ok (ROk (Some FBc2)) ->
  transform_file_with_multiple_handlers ext (o VariantNone false) hs input output
    (with_bc2_manual bundle_new (manual_split_colour_endpoints (manual_decorrelation_mode manual_new VariantNone) false)) fs w = Ok (ROk h, fs1, w1) ->
  handle_transform_single_file ext hs inspectors o0 o input output fs w = Ok (ROk tt, fs1, w1).
Proof.
  intros ext hs inspectors o0 o input output fs w h fs1 w1 E1 E2. unfold handle_transform_single_file. rewrite E1. cbn [bind].
  eapply first_settings. exact E2.
Qed.
End Single.

(** ** All settings, in order *)
Lemma attempts_cons : forall {Fs St A E : Type} (try : stable_variant -> bool -> Fs -> St -> res (result A E * Fs * St)) v s l fs w b fs' w',
  attempts try ((v, s) :: l) fs w b fs' w' ->
  (exists a, try v s fs w = Ok (ROk a, fs', w') /\ b = true) \/
  (exists e fs1 w1, try v s fs w = Ok (RErr e, fs1, w1) /\ attempts try l fs1 w1 b fs' w').
Proof.
  intros Fs St A E try v s l fs w b fs' w' H. inversion H; subst.
  - left. eexists. split; [eassumption|reflexivity].
  - right. do 3 eexists. split; eassumption.
Qed.
Lemma attempts_nil : forall {Fs St A E : Type} (try : stable_variant -> bool -> Fs -> St -> res (result A E * Fs * St)) fs w b fs' w',
  attempts try [] fs w b fs' w' -> b = false /\ fs' = fs /\ w' = w.
Proof. intros Fs St A E try fs w b fs' w' H. inversion H; subst. repeat split. Qed.
Section Attempts.
Context {St Er : Type}.
Variables (ext : path -> option string) (hs : list (handler (bundle St Er) St)) (o : stable_variant -> bool -> io)
  (build : stable_variant -> bool -> bundle St Er) (input output : path).
Lemma combinations_attempts : forall l fs w r fs' w',
  test_combinations ext hs o build l input output fs w = Ok (r, fs', w') <->
  exists b, attempts (fun v s => transform_file_with_multiple_handlers ext (o v s) hs input output (build v s)) l fs w b fs' w' /\
    r = if b then ROk tt else RErr DMessage.
Proof.
  induction l as [|[v s] l IH]; intros fs w r fs' w'; cbn [test_combinations].
  - split.
    + intros E. injection E as <- <- <-. exists false. split; [constructor|reflexivity].
    + intros (b & A & ->). apply attempts_nil in A. destruct A as (-> & -> & ->). reflexivity.
  - destruct (transform_file_with_multiple_handlers ext (o v s) hs input output (build v s) fs w) as [[[[h|e] fs1] w1]|why|why] eqn:E; cbn [bind].
    + split.
      * intros X. injection X as <- <- <-. exists true. split; [eapply one_works; exact E|reflexivity].
      * intros (b & A & ->). apply attempts_cons in A. destruct A as [(a & T & ->)|(e & f & x & T & _)]; rewrite E in T; [|discriminate T].
        injection T as _ -> ->. reflexivity.
    + split.
      * intros X. apply IH in X. destruct X as (b & A & ->). exists b. split; [eapply goes_on; [exact E|exact A]|reflexivity].
      * intros (b & A & ->). apply IH. apply attempts_cons in A. destruct A as [(a & T & ->)|(e1 & f & x & T & A)]; rewrite E in T; [discriminate T|].
        injection T as _ -> ->. exists b. split; [exact A|reflexivity].
    + split; [discriminate|]. intros (b & A & _). apply attempts_cons in A. destruct A as [(a & T & _)|(e1 & f & x & T & _)]; rewrite E in T; discriminate T.
    + split; [discriminate|]. intros (b & A & _). apply attempts_cons in A. destruct A as [(a & T & _)|(e1 & f & x & T & _)]; rewrite E in T; discriminate T.
Qed.
End Attempts.

Section Tried.
Context {St Er : Type}.
Lemma tried_bc1 : forall (ext : path -> option string) (hs : list (handler (bundle St Er) St)) inspectors o0 o input output fs w r fs' w',
  get_transform_format ext o0 input inspectors AllFormats fs = Ok (ROk (Some FBc1)) ->
  (handle_transform_single_file ext hs inspectors o0 o input output fs w = Ok (r, fs', w') <->
   exists b, attempts (fun v s => transform_file_with_multiple_handlers ext (o v s) hs input output
        (with_bc1_manual bundle_new (manual_split_colour_endpoints (manual_decorrelation_mode manual_new v) s))) settings_in_order fs w b fs' w' /\
     r = if b then ROk tt else RErr DMessage).
Proof.
  intros ext hs inspectors o0 o input output fs w r fs' w' E1. unfold handle_transform_single_file. rewrite E1. cbn [bind].
  exact (combinations_attempts ext hs o bc1_bundle input output settings_in_order fs w r fs' w').
Qed.
Lemma tried_bc2 : forall (ext : path -> option string) (hs : list (handler (bundle St Er) St)) inspectors o0 o input output fs w r fs' w',
  get_transform_format ext o0 input inspectors AllFormats fs = Ok (ROk (Some FBc2)) ->
  (handle_transform_single_file ext hs inspectors o0 o input output fs w = Ok (r, fs', w') <->
   exists b, attempts (fun v s => transform_file_with_multiple_handlers ext (o v s) hs input output
        (with_bc2_manual bundle_new (manual_split_colour_endpoints (manual_decorrelation_mode manual_new v) s))) settings_in_order fs w b fs' w' /\
     r = if b then ROk tt else RErr DMessage).
Proof.
  intros ext hs inspectors o0 o input output fs w r fs' w' E1. unfold handle_transform_single_file. rewrite E1. cbn [bind].
  exact (combinations_attempts ext hs o bc2_bundle input output settings_in_order fs w r fs' w').
Qed.
Lemma tried_others : forall (ext : path -> option string) (hs : list (handler (bundle St Er) St)) inspectors o0 o input output fs w f,
  get_transform_format ext o0 input inspectors AllFormats fs = Ok (ROk f) -> f <> Some FBc1 -> f <> Some FBc2 ->
  handle_transform_single_file ext hs inspectors o0 o input output fs w = Ok (RErr DMessage, fs, w).
Proof.
  intros ext hs inspectors o0 o input output fs w f E1 N1 N2. unfold handle_transform_single_file. rewrite E1. cbn [bind].
  destruct f as [[]|]; try reflexivity; congruence.
Qed.
End Tried.

(** ** What a failure says *)
Lemma compare_loop_errors : forall fuel f1 f2 n l1 l2 e, compare_loop fuel f1 f2 n l1 l2 = Ok (RErr e) -> e = EIo.
Proof.
  induction fuel as [|fuel IH]; intros f1 f2 n l1 l2 e; cbn [compare_loop]; [discriminate|].
  destruct (read_file f1 n l1) as [[b1 r1]|]; [|congruence]. destruct (read_file f2 n l2) as [[b2 r2]|]; [|congruence].
  destruct (negb _); [discriminate|]. destruct (negb _); [discriminate|]. destruct (_ =? _); [discriminate|]. apply IH.
Qed.
Lemma compare_files_errors : forall f1 f2 e, compare_files f1 f2 = Ok (RErr e) -> e = EIo.
Proof.
  intros f1 f2 e. unfold compare_files. destruct (on_disk f1); [|congruence]. destruct (on_disk f2); [|congruence].
  destruct (negb _); [congruence|]. destruct (negb _); [discriminate|]. destruct (negb _); [congruence|]. apply compare_loop_errors.
Qed.
Lemma compare_entries_errors : forall d1 d2 e1 e2 e, compare_entries d1 d2 e1 e2 = Ok (RErr e) -> e = EIo.
Proof.
  induction e1 as [|p es IH]; intros e2 e; cbn [compare_entries]; [discriminate|].
  destruct (in_dec _ _ _); [|discriminate].
  destruct (compare_files (d_file d1 p) (d_file d2 p)) as [[[]|e']| |] eqn:E; cbn [bind]; try discriminate; [apply IH|].
  intros X. injection X as <-. exact (compare_files_errors _ _ _ E).
Qed.
Lemma collect_errors : forall t below e, collect_files_recursive below t = RErr e -> e = EIo.
Proof.
  induction t as [| |es IH] using tree_rec_ind; intros below e; cbn [collect_files_recursive]; [congruence|congruence|].
  revert e. induction es as [|[[name sub]|] es IHes]; intros e; [discriminate| |congruence].
  specialize (IHes (fun n t H => IH n t (or_intror H))). pose proof (IH name sub (or_introl eq_refl) (below ++ [name])) as IHs. clear IH.
  destruct sub as [|sub].
  - match goal with |- match ?G with _ => _ end = _ -> _ => destruct G as [l|e1]; [discriminate|] end.
    intros X. injection X as <-. apply IHes. reflexivity.
  - destruct (collect_files_recursive (below ++ [name]) (Folder sub)) as [l1|e1].
    + match goal with |- match ?G with _ => _ end = _ -> _ => destruct G as [l|e1]; [discriminate|] end.
      intros X. injection X as <-. apply IHes. reflexivity.
    + intros X. injection X as <-. apply IHs. reflexivity.
Qed.
Lemma compare_directories_errors : forall d1 d2 e, compare_directories d1 d2 = Ok (RErr e) -> e = EIo.
Proof.
  intros d1 d2 e. unfold compare_directories, collect_directory_files.
  destruct (collect_files_recursive [] (d_tree d1)) as [e1|x1] eqn:E1; [|intros X; injection X as <-; exact (collect_errors _ _ _ E1)].
  destruct (collect_files_recursive [] (d_tree d2)) as [e2|x2] eqn:E2; [|intros X; injection X as <-; exact (collect_errors _ _ _ E2)].
  destruct (negb _); [discriminate|]. apply compare_entries_errors.
Qed.
Lemma single_errors : forall le be f e, only_io_errors le -> only_io_errors be -> run_single_endian_test le be f = Ok (RErr e) -> e = EIo.
Proof.
  intros le be f e (L1 & L2) (B1 & B2). unfold run_single_endian_test.
  destruct (run_transform le f) as [[tl dl]|] eqn:E1; [|intros X; injection X as <-; exact (L1 _ _ E1)].
  destruct (run_transform be f) as [[tb db]|] eqn:E2; [|intros X; injection X as <-; exact (B1 _ _ E2)].
  destruct (tl && tb); [|discriminate].
  destruct (compare_directories dl db) as [[same|e1]| |] eqn:E3; cbn [bind]; [|intros X; injection X as <-; exact (compare_directories_errors _ _ _ E3)|discriminate|discriminate].
  destruct (run_untransform le dl) as [[ul rl]|] eqn:E4; [|intros X; injection X as <-; exact (L2 _ _ E4)].
  destruct (run_untransform be db) as [[ub rb]|] eqn:E5; [|intros X; injection X as <-; exact (B2 _ _ E5)].
  destruct (ul && ub); [|discriminate].
  destruct (compare_directories rl rb) as [[same2|e1]| |] eqn:E6; cbn [bind]; [discriminate|intros X; injection X as <-; exact (compare_directories_errors _ _ _ E6)|discriminate|discriminate].
Qed.
Lemma report_failed : forall rs, report_results rs = RErr TestsFailed -> exists r, In r rs /\ is_success r = false.
Proof.
  intros rs H. destruct (forallb is_success rs) eqn:F.
  - assert (X : report_results rs = ROk tt) by (apply report_spec; apply forallb_forall; exact F). rewrite X in H. discriminate H.
  - clear H. induction rs as [|r rs IH]; [discriminate F|]. cbn [forallb] in F. destruct (is_success r) eqn:S.
    + destruct (IH F) as (q & I & Q). exists q. split; [right; exact I|exact Q].
    + exists r. split; [left; reflexivity|exact S].
Qed.
Lemma all_errors : forall le be files e, only_io_errors le -> only_io_errors be -> run_all_endian_tests le be files = Ok (RErr e) -> e = EIo.
Proof.
  intros le be files e L B. induction files as [|f fs IH]; cbn [run_all_endian_tests]; [discriminate|].
  destruct (run_single_endian_test le be f) as [[r|e1]| |] eqn:E; cbn [bind]; [|intros X; injection X as <-; exact (single_errors _ _ _ _ L B E)|discriminate|discriminate].
  destruct (run_all_endian_tests le be fs) as [[rs|e2]| |]; cbn [bind]; [discriminate|intros X; injection X as <-; apply IH; reflexivity|discriminate|discriminate].
Qed.
Lemma command_failed : forall le be files, real_machine le -> real_machine be -> quiet_machine le -> quiet_machine be ->
  only_io_errors le -> only_io_errors be ->
  handle_debug_command le be files = Ok (RErr TestsFailed) -> exists f, In f files /\ ~ machines_agree le be f.
Proof.
  intros le be files R1 R2 Q1 Q2 L B H. unfold handle_debug_command in H.
  destruct (run_all_endian_tests le be files) as [[rs|e]| |] eqn:E; cbn [bind] in H; [|injection H as ->; pose proof (all_errors _ _ _ _ L B E) as X; discriminate X|discriminate H|discriminate H].
  injection H as H. apply report_failed in H. destruct H as (r & I & F). apply all_results in E.
  induction E as [|f r1 fs rs E1 E IH]; [destruct I|]. destruct I as [->|I].
  - exists f. split; [left; reflexivity|]. intros A. destruct (single_complete le be f R1 R2 Q1 Q2 A) as (q & Eq & S). rewrite Eq in E1. congruence.
  - destruct (IH I) as (g & Ig & Ng). exists g. split; [right; exact Ig|exact Ng].
Qed.
(** the flags of a test that came to a result *)
Lemma single_flags : forall le be f r, run_single_endian_test le be f = Ok (ROk r) ->
  exists tl dl tb db, run_transform le f = ROk (tl, dl) /\ run_transform be f = ROk (tb, db) /\
    transform_success r = tl && tb /\
    (transform_success r = false -> untransform_success r = false /\ files_identical r = false) /\
    (transform_success r = true -> exists ul rl ub rb, run_untransform le dl = ROk (ul, rl) /\ run_untransform be db = ROk (ub, rb) /\
       untransform_success r = ul && ub /\ (untransform_success r = false -> files_identical r = false) /\
       (files_identical r = true <->
          untransform_success r = true /\ compare_directories dl db = Ok (ROk true) /\ compare_directories rl rb = Ok (ROk true))).
Proof.
  intros le be f r. unfold run_single_endian_test.
  destruct (run_transform le f) as [[tl dl]|]; [|discriminate]. destruct (run_transform be f) as [[tb db]|]; [|discriminate].
  intros H. exists tl, dl, tb, db. split; [reflexivity|]. split; [reflexivity|].
  destruct (tl && tb).
  - destruct (compare_directories dl db) as [[same|]| |]; try discriminate H. cbn [bind] in H.
    destruct (run_untransform le dl) as [[ul rl]|]; [|discriminate H]. destruct (run_untransform be db) as [[ub rb]|]; [|discriminate H].
    destruct (ul && ub) eqn:U.
    + destruct (compare_directories rl rb) as [[same2|]| |] eqn:E2; try discriminate H. cbn [bind] in H. injection H as <-.
      split; [reflexivity|]. split; [discriminate|]. intros _. exists ul, rl, ub, rb. cbn [untransform_success files_identical].
      split; [reflexivity|]. split; [reflexivity|]. split; [symmetry; exact U|]. split; [discriminate|]. rewrite E2. split.
      * intros X. apply andb_prop in X. destruct X as (-> & ->). split; [reflexivity|]. split; reflexivity.
      * intros (_ & X & Y). injection X as ->. injection Y as ->. reflexivity.
    + injection H as <-. split; [reflexivity|]. split; [discriminate|]. intros _. exists ul, rl, ub, rb. cbn [untransform_success files_identical].
      split; [reflexivity|]. split; [reflexivity|]. split; [symmetry; exact U|]. split; [intros _; apply andb_false_r|].
      rewrite andb_false_r. split; [discriminate|]. intros (X & _). discriminate X.
  - injection H as <-. split; [reflexivity|]. split; [split; reflexivity|]. discriminate.
Qed.
