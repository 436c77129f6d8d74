(** The tool that the debug-endian command runs on each machine. *)
From Verif Require Import Base.Bytes Base.Res Model.Color565 Model.Ycc Model.Kernel Model.Transform Model.Auto Model.Builders Model.Embed Model.Bundle
  Model.Dds Model.Handlers Model.Inspect Model.Cli Model.EndianTest Model.BigEndian Model.BeTransform Model.BeFiles Model.EndianTool.
From Verif Require Import Spec.Layout Spec.Estimator Spec.Files Spec.Dds Spec.Cli Spec.BigEndian Spec.BeFiles Spec.EndianTest Spec.EndianTool.
From Verif Require Import Proofs.BundleFacts Proofs.DdsFacts Proofs.DdsHandler Proofs.DdsMore Proofs.HandlersFacts Proofs.CliFacts Proofs.CliDds Proofs.EndianTestFacts
  Proofs.BigEndianFacts Proofs.BeBundleFacts Proofs.BeDdsHandler Proofs.BeFilesFacts.
From Coq Require Import Ascii String Permutation Sorting.Sorted OrderedTypeEx ZifyBool ZifyNat.
Open Scope list_scope.
Open Scope Z_scope.

Lemma join_dirs : forall n, join "in" n <> join "transformed" n /\ join "transformed" n <> join "restored" n.
Proof. intros n. unfold join. cbn [String.append]. split; discriminate. Qed.

Section Machine.
Context {St Er : Type}.
Variable ext : path -> option string.
Variable h : handler (bundle St Er) St.
Variable n : inspector.
Variables (name : string) (o0 : io) (o : stable_variant -> bool -> io) (ou : string -> io) (rd : nat -> option Z) (w : St).
Hypothesis (W0 : all_works o0) (W1 : forall v s, all_works (o v s)) (W2 : forall m, all_works (ou m)).
Let m := tool_machine ext [h] [n] name o0 o ou rd w.

(** What the two handlers have to do with a file. *)
Variables (k : codec) (x y : list byte).
Hypothesis A1 : forall e, dds_named e = true -> n_can_handle n x e = Ok true.
Hypothesis A2 : n_format n x AllFormats = Ok (ROk (Some (codec_format k))).
Hypothesis A3 : forall e, dds_named e = true -> h_can_handle h x e w = Ok (true, w).
Hypothesis A4 : forall out, zlen out = zlen x -> h_transform h (installed [WithManual k (ManualBuilder (Settings VNone false))]) x out w = Ok (ROk tt, y, w).
Hypothesis A5 : forall e, dds_named e = true -> h_can_handle_untransform h y e w = Ok (true, w).
Hypothesis A6 : forall out, zlen out = zlen y -> h_untransform h y out w = Ok (ROk tt, x, w).
Hypothesis E : forall dir, dds_named (ext (join dir name)) = true.

Lemma into_ok : forall (oo : io) run ip sz op fs z, all_works oo -> 0 <= sz -> ip <> op ->
  (forall out, zlen out = sz -> run out w = Ok (ROk tt, z, w)) ->
  exists fs1, into_new_file (W := St) oo run (Some ip) sz op fs w = Ok (ROk tt, fs1, w) /\ fs1 op = Some z.
Proof.
  intros oo run ip sz op fs z WO Hs N R. unfold into_new_file, create_preallocated. destruct (WO op) as (_ & -> & ->). cbn [negb].
  replace (String.eqb ip op) with false by (symmetry; apply String.eqb_neq; exact N). rewrite set_same, R by (apply zlen_fresh; exact Hs). cbn [bind].
  eexists. split; [reflexivity|]. apply set_same.
Qed.

Lemma transforms : exists d, run_transform m x = ROk (true, d) /\ only_file name y d /\ (forall p, d_file d p = DiskFile (on_disk (d_file d p)) true true rd).
Proof.
  destruct (join_dirs name) as (J & _). pose proof (E "in"%string) as Ep. set (p := join "in" name) in *. set (q := join "transformed" name) in *. set (fs := set_file (fun _ => None) p x).
  assert (M : forall oo, all_works oo -> map_input oo fs p = ROk x) by (intros oo WO; unfold map_input, fs; rewrite set_same; destruct (WO p) as (-> & -> & _); reflexivity).
  assert (G : get_transform_format ext o0 p [n] AllFormats fs = Ok (ROk (Some (codec_format k)))).
  { unfold get_transform_format. rewrite (M _ W0). cbn [format_loop]. rewrite (A1 _ Ep). cbn [bind]. rewrite A2. reflexivity. }
  destruct (into_ok (o VariantNone false) (fun out w => transform_slice_with_bundle h x out (installed [WithManual k (ManualBuilder (Settings VNone false))]) w)
     p (zlen x) q fs y (W1 _ _) (zlen_nonneg _ _) J) as (fs1 & R1 & R2).
  { intros out L. rewrite slice_transform_id by exact L. apply A4, L. }
  assert (T : transform_file_with_multiple_handlers ext (o VariantNone false) [h] p q (installed [WithManual k (ManualBuilder (Settings VNone false))]) fs w = Ok (ROk h, fs1, w)).
  { unfold transform_file_with_multiple_handlers. rewrite (M _ (W1 _ _)). cbn [try_file_handlers]. rewrite (A3 _ Ep). cbn [bind]. rewrite R1. reflexivity. }
  assert (H : handle_transform_single_file ext [h] [n] o0 o p q fs w = Ok (ROk tt, fs1, w)).
  { unfold handle_transform_single_file. rewrite G. cbn [bind]. destruct k; cbn [codec_format]; (eapply first_settings; exact T). }
  unfold m, tool_machine. cbn [run_transform]. fold p q. fold fs. rewrite H. eexists. split; [reflexivity|]. split; [|reflexivity].
  unfold directory_of, only_file. cbn [d_tree d_file on_disk filter map]. fold q. rewrite R2. split; reflexivity.
Qed.

Lemma restores : forall d, only_file name y d ->
  exists r, run_untransform m d = ROk (true, r) /\ only_file name x r /\ (forall p, d_file r p = DiskFile (on_disk (d_file r p)) true true rd).
Proof.
  intros d (T & F). destruct (join_dirs name) as (_ & J). pose proof (E "transformed"%string) as Ep. set (p := join "transformed" name) in *. set (q := join "restored" name) in *.
  set (fs := files_in d "transformed").
  assert (FP : fs p = Some y) by (unfold fs, files_in; rewrite T; cbn [names_in flat_map app find]; fold p; rewrite String.eqb_refl; exact F).
  destruct (into_ok (ou name) (fun out w => untransform_slice h y out w) p (zlen y) q fs x (W2 _) (zlen_nonneg _ _) J) as (fs1 & R1 & R2).
  { intros out L. rewrite slice_untransform_id by exact L. apply A6, L. }
  assert (H : handle_untransform_single_file ext [h] ou "transformed" "restored" (d_tree d) fs w = Ok (ROk tt, fs1, w)).
  { rewrite T. cbn [handle_untransform_single_file untransform_entries]. fold p q. unfold untransform_file_with_multiple_handlers, map_input. rewrite FP.
    destruct (W2 name p) as (-> & -> & _). cbn [andb try_file_handlers]. rewrite (A5 _ Ep). cbn [bind]. rewrite R1. reflexivity. }
  unfold m, tool_machine. cbn [run_untransform]. fold fs. rewrite H. eexists. split; [reflexivity|]. split; [|reflexivity].
  rewrite T. unfold directory_of, only_file. cbn [names_in flat_map app d_tree d_file on_disk filter map]. fold q. rewrite R2. split; reflexivity.
Qed.
End Machine.

(** Directories with the same single file are called identical. *)
Lemma only_compare : forall name x d1 d2 rd1 rd2, file_name name -> only_file name x d1 -> only_file name x d2 -> full_reads rd1 -> full_reads rd2 ->
  (forall p, d_file d1 p = DiskFile (on_disk (d_file d1 p)) true true rd1) -> (forall p, d_file d2 p = DiskFile (on_disk (d_file d2 p)) true true rd2) ->
  same_directory d1 d2 /\ compare_directories d1 d2 = Ok (ROk true).
Proof.
  intros name x d1 d2 rd1 rd2 FN (T1 & F1) (T2 & F2) R1 R2 D1 D2.
  assert (RT : real_tree (Folder (Some [Some (name, Leaf)]))).
  { constructor; cbn [entry_names flat_map app].
    - constructor; [intros []|constructor].
    - constructor; [exact FN|constructor].
    - intros a b [Q|[]]. injection Q as _ <-. constructor. }
  assert (RD : readable (Folder (Some [Some (name, Leaf)]))).
  { constructor. intros e [<-|[]]. eexists. eexists. split; [reflexivity|]. left. reflexivity. }
  assert (SD : same_directory d1 d2).
  { split; rewrite ?T1, ?T2; [reflexivity|]. intros r V.
    assert (r = [name]) as ->.
    { inversion V as [es a HI|es a sub r' HI V']; subst; destruct HI as [Q|[]].
      - injection Q as <-. reflexivity.
      - injection Q as _ <-. inversion V'. }
    exists x. split; assumption. }
  split; [exact SD|]. apply compare_directories_complete; rewrite ?T1, ?T2; try assumption.
  - intros p. rewrite D1. split; [reflexivity|]. split; [reflexivity|]. exact R1.
  - intros p. rewrite D2. split; [reflexivity|]. split; [reflexivity|]. exact R2.
Qed.

(** ** The DDS handler of either byte order *)

Section Dds.
Variables (k : codec) (x : list byte) (i : dds_info).
Hypothesis WF : whole_file k x i.
Let off := i_data_offset i.
Let n := i_data_length i.
Let plain := Settings VNone false.
Definition packed (k : codec) (x : list byte) (i : dds_info) : list byte :=
  packed_file (codec_header k (Settings VNone false)) x (i_data_offset i) (i_data_length i) (texture_layout k (Settings VNone false) (slice x (i_data_offset i) (i_data_length i))).
Let y := packed k x i.

Lemma plain_works : forall (St Er : Type) (show : Er -> string) c v out (st : St), supported c -> c_debug c = false -> 2 ^ 32 + 147 <= usize_max v -> zlen out = zlen x ->
  dds_transform_bundle show c v (installed [WithManual (St := St) (Er := Er) k (ManualBuilder plain)]) x out st = Ok (ROk tt, y, st).
Proof.
  intros St Er show c v out st K D HU LO. destruct WF as (P & F & Le & Hm). rewrite <- D in P.
  destruct (parse_facts _ _ _ (proj2 (parse_dds_facts _ _ _ P))) as (_ & _ & _ & _ & Hn & Ho & Hx).
  assert (LT : zlen (slice x (i_data_offset i) (i_data_length i)) = i_data_length i) by (apply zlen_slice; lia).
  assert (LoT : zlen (slice out (i_data_offset i) (i_data_length i)) = i_data_length i) by (apply zlen_slice; lia).
  pose proof (transform_when St Er show c v (installed [WithManual k (ManualBuilder plain)]) x out st i (codec_format k) HU P ltac:(rewrite F; destruct k; reflexivity) Le LO) as W.
  cbv zeta in W. rewrite dispatch_manual in W by lia. rewrite core_transform_ok in W; [|exact K|rewrite D; discriminate|rewrite LT; exact Hm|lia].
  cbn [bind fst snd mb_settings] in W. rewrite skipn_all2 in W by (apply Nat.eq_le_incl, zlen_eq; lia). rewrite app_nil_r in W. apply W.
  apply (f_equal Z.of_nat). apply layout_len. rewrite LT. exact Hm.
Qed.
Lemma be_plain_works : forall (St Er : Type) (show : Er -> string) j v out (st : St), 2 ^ 32 + 147 <= usize_max v -> zlen out = zlen x ->
  be_dds_transform_bundle show (big_endian_cpu false j) v (installed [WithManual (St := St) (Er := Er) k (ManualBuilder plain)]) x out st = Ok (ROk tt, y, st).
Proof.
  intros St Er show j v out st HU LO.
  set (c := Cfg false X86_64 false true false false false false false false x00).
  assert (K : supported c) by (split; [constructor; intros; first [reflexivity|discriminate]|discriminate]).
  rewrite <- (plain_works St Er show c v out st K eq_refl HU LO).
  change false with (c_debug c) at 1. apply transform_same; [exact K|lia| |discriminate].
  unfold plain_bundle. destruct k; cbn; auto.
Qed.
Lemma packed_len : zlen y = zlen x.
Proof.
  destruct WF as (P & F & Le & Hm). destruct (parse_facts _ _ _ (proj2 (parse_dds_facts _ _ _ P))) as (_ & _ & _ & _ & Hn & Ho & Hx).
  assert (LT : zlen (slice x (i_data_offset i) (i_data_length i)) = i_data_length i) by (apply zlen_slice; lia).
  unfold y, packed, packed_file. rewrite !zlen_app, !zlen_slice by lia. unfold zlen at 2. rewrite layout_len by (rewrite LT; exact Hm). fold (zlen (slice x (i_data_offset i) (i_data_length i))).
  rewrite LT. change (zlen (u32_bytes _)) with 4. lia.
Qed.
Lemma plain_back : forall c v out, supported c -> c_debug c = false -> zlen x <= usize_max v -> zlen out = zlen y -> dds_untransform c v y out = Ok (ROk tt, x).
Proof.
  intros c v out K D HU L. pose proof packed_len as PL. destruct WF as (P & _). rewrite <- D in P.
  set (v1 := Env (2 ^ 32 + 147) (fun _ => true)).
  assert (S : skipn (List.length x) out = []) by (apply skipn_all2; unfold zlen in *; lia).
  rewrite <- (app_nil_r x) at 1. rewrite <- S. replace y with (firstn (List.length x) y) by (apply firstn_all2; unfold zlen in *; lia).
  apply (dds_round_trip unit unit (fun _ => EmptyString) c c v1 v (installed [WithManual k (ManualBuilder plain)]) x x out tt tt y i); try assumption.
  - rewrite D. intros [Q|Q]; discriminate Q.
  - rewrite D. discriminate.
  - unfold v1. cbn [usize_max]. lia.
  - apply plain_works; [exact K|exact D|unfold v1; cbn [usize_max]; lia|reflexivity].
  - lia.
  - lia.
Qed.
Lemma be_plain_back : forall j v out, zlen x <= usize_max v -> zlen out = zlen y -> be_dds_untransform (big_endian_cpu false j) v y out = Ok (ROk tt, x).
Proof.
  intros j v out HU L. pose proof packed_len as PL. destruct WF as (P & _).
  set (v1 := Env (2 ^ 32 + 147) (fun _ => true)).
  assert (S : skipn (List.length x) out = []) by (apply skipn_all2; unfold zlen in *; lia).
  rewrite <- (app_nil_r x) at 1. rewrite <- S. replace y with (firstn (List.length x) y) by (apply firstn_all2; unfold zlen in *; lia).
  apply (be_dds_round_trip unit unit (fun _ => EmptyString) (big_endian_cpu false j) (big_endian_cpu false j) v1 v (installed [WithManual k (ManualBuilder plain)]) x x out tt tt y i);
    try assumption; try apply big_endian_ok.
  - discriminate.
  - unfold v1. cbn [usize_max]. lia.
  - apply be_plain_works; [unfold v1; cbn [usize_max]; lia|reflexivity].
  - lia.
  - lia.
Qed.
Lemma whole_handled : forall e, dds_named e = true -> dds_can_handle false x e = Ok true.
Proof.
  intros e N. destruct WF as (P & _). unfold dds_can_handle. unfold dds_named in N. rewrite P. cbn [bind].
  destruct (parse_dds_facts _ _ _ P) as (M & _). destruct e as [e|]; [rewrite N|]; reflexivity.
Qed.
Lemma packed_handled : forall e, dds_named e = true -> dds_can_handle_untransform false y e = Ok true.
Proof.
  intros e N. pose proof packed_len as PL.
  set (c := Cfg false X86_64 false true false false false false false false x00).
  assert (K : supported c) by (split; [constructor; intros; first [reflexivity|discriminate]|discriminate]).
  pose proof (plain_back c (Env (zlen x) (fun _ => true)) y K eq_refl ltac:(cbn [usize_max]; lia) eq_refl) as B.
  unfold dds_untransform in B. unfold dds_can_handle_untransform. destruct (zlen y <? 4); [discriminate|]. destruct (zlen y <? zlen y); [discriminate|].
  change (c_debug c) with false in B. destruct (parse_dds_ignore_magic false y) as [[i'|]| |]; cbn [bind] in B |- *; try discriminate.
  unfold dds_named in N. destruct e as [e|]; [rewrite N|]; reflexivity.
Qed.
Lemma whole_format : dds_get_transform_format false x AllFormats = Ok (ROk (Some (codec_format k))).
Proof. destruct WF as (P & F & _). unfold dds_get_transform_format. rewrite P. cbn [bind]. rewrite F. destruct k; reflexivity. Qed.
End Dds.

(** ** The command with the real tools *)

Section Command.
Context {St1 Er1 St2 Er2 : Type}.
Variables (show1 : Er1 -> string) (show2 : Er2 -> string) (c : cfg) (j : byte) (v1 v2 : env).
Variables (ext1 ext2 : path -> option string) (name : string).
Variables (o01 o02 : io) (o1 o2 : stable_variant -> bool -> io) (ou1 ou2 : string -> io) (rd1 rd2 : nat -> option Z) (w1 : St1) (w2 : St2).
Hypothesis (K : supported c) (D : c_debug c = false) (U1 : 2 ^ 32 + 147 <= usize_max v1) (U2 : 2 ^ 32 + 147 <= usize_max v2).
Hypothesis (X1 : forall dir, dds_named (ext1 (join dir name)) = true) (X2 : forall dir, dds_named (ext2 (join dir name)) = true) (FN : file_name name).
Hypothesis (W01 : all_works o01) (W02 : all_works o02) (W1 : forall v s, all_works (o1 v s)) (W2 : forall v s, all_works (o2 v s)).
Hypothesis (WU1 : forall m, all_works (ou1 m)) (WU2 : forall m, all_works (ou2 m)) (R1 : full_reads rd1) (R2 : full_reads rd2).
Let le := tool_machine ext1 (all_handlers show1 c v1) (all_inspectors false v1) name o01 o1 ou1 rd1 w1.
Let be := tool_machine ext2 (be_all_handlers show2 (big_endian_cpu false j) v2) (all_inspectors false v2) name o02 o2 ou2 rd2 w2.

Lemma tool_single : forall k x i, whole_file k x i -> zlen x <= usize_max v1 -> zlen x <= usize_max v2 ->
  exists dl db rl rb, run_transform le x = ROk (true, dl) /\ run_transform be x = ROk (true, db) /\
    run_untransform le dl = ROk (true, rl) /\ run_untransform be db = ROk (true, rb) /\
    only_file name (packed k x i) dl /\ only_file name (packed k x i) db /\ only_file name x rl /\ only_file name x rb /\
    run_single_endian_test le be x = Ok (ROk (EndianTestResult true true true)).
Proof.
  intros k x i WF L1 L2.
  assert (A1 : forall e, dds_named e = true -> n_can_handle (dds_inspector false v1) x e = Ok true) by (intros e; apply (whole_handled k x i WF)).
  assert (A1' : forall e, dds_named e = true -> n_can_handle (dds_inspector false v2) x e = Ok true) by (intros e; apply (whole_handled k x i WF)).
  pose proof (whole_format k x i WF) as A2.
  assert (A3 : forall e, dds_named e = true -> h_can_handle (dds_handler (St := St1) show1 c v1) x e w1 = Ok (true, w1)).
  { intros e N. unfold dds_handler. cbn [h_can_handle]. rewrite D, (whole_handled k x i WF e N). reflexivity. }
  assert (A3' : forall e, dds_named e = true -> h_can_handle (be_dds_handler (St := St2) show2 (big_endian_cpu false j) v2) x e w2 = Ok (true, w2)).
  { intros e N. unfold be_dds_handler. cbn [h_can_handle c_debug big_endian_cpu]. rewrite (whole_handled k x i WF e N). reflexivity. }
  assert (A4 : forall out, zlen out = zlen x -> h_transform (dds_handler (St := St1) show1 c v1) (installed [WithManual k (ManualBuilder (Settings VNone false))]) x out w1 = Ok (ROk tt, packed k x i, w1)).
  { intros out L. unfold dds_handler. cbn [h_transform]. apply plain_works; assumption. }
  assert (A4' : forall out, zlen out = zlen x -> h_transform (be_dds_handler (St := St2) show2 (big_endian_cpu false j) v2) (installed [WithManual k (ManualBuilder (Settings VNone false))]) x out w2 = Ok (ROk tt, packed k x i, w2)).
  { intros out L. unfold be_dds_handler. cbn [h_transform]. apply be_plain_works; assumption. }
  assert (A5 : forall e, dds_named e = true -> h_can_handle_untransform (dds_handler (St := St1) show1 c v1) (packed k x i) e w1 = Ok (true, w1)).
  { intros e N. unfold dds_handler. cbn [h_can_handle_untransform]. rewrite D, (packed_handled k x i WF e N). reflexivity. }
  assert (A5' : forall e, dds_named e = true -> h_can_handle_untransform (be_dds_handler (St := St2) show2 (big_endian_cpu false j) v2) (packed k x i) e w2 = Ok (true, w2)).
  { intros e N. unfold be_dds_handler. cbn [h_can_handle_untransform c_debug big_endian_cpu]. rewrite (packed_handled k x i WF e N). reflexivity. }
  assert (A6 : forall out, zlen out = zlen (packed k x i) -> h_untransform (dds_handler (St := St1) show1 c v1) (packed k x i) out w1 = Ok (ROk tt, x, w1)).
  { intros out L. unfold dds_handler. cbn [h_untransform]. rewrite (plain_back k x i WF c v1 out K D L1 L). reflexivity. }
  assert (A6' : forall out, zlen out = zlen (packed k x i) -> h_untransform (be_dds_handler (St := St2) show2 (big_endian_cpu false j) v2) (packed k x i) out w2 = Ok (ROk tt, x, w2)).
  { intros out L. unfold be_dds_handler. cbn [h_untransform]. rewrite (be_plain_back k x i WF j v2 out L2 L). reflexivity. }
  destruct (transforms ext1 (dds_handler show1 c v1) (dds_inspector false v1) name o01 o1 ou1 rd1 w1 W01 W1 k x (packed k x i) A1 A2 A3 A4 X1) as (dl & T1 & F1 & Q1).
  destruct (transforms ext2 (be_dds_handler show2 (big_endian_cpu false j) v2) (dds_inspector false v2) name o02 o2 ou2 rd2 w2 W02 W2 k x (packed k x i) A1' A2 A3' A4' X2) as (db & T2 & F2 & Q2).
  destruct (restores ext1 (dds_handler show1 c v1) (dds_inspector false v1) name o01 o1 ou1 rd1 w1 WU1 x (packed k x i) A5 A6 X1 dl F1) as (rl & T3 & F3 & Q3).
  destruct (restores ext2 (be_dds_handler show2 (big_endian_cpu false j) v2) (dds_inspector false v2) name o02 o2 ou2 rd2 w2 WU2 x (packed k x i) A5' A6' X2 db F2) as (rb & T4 & F4 & Q4).
  destruct (only_compare name _ _ _ _ _ FN F1 F2 R1 R2 Q1 Q2) as (_ & C1).
  destruct (only_compare name _ _ _ _ _ FN F3 F4 R1 R2 Q3 Q4) as (_ & C2).
  exists dl, db, rl, rb. change (run_transform le x = ROk (true, dl)) in T1. change (run_transform be x = ROk (true, db)) in T2.
  change (run_untransform le dl = ROk (true, rl)) in T3. change (run_untransform be db = ROk (true, rb)) in T4.
  split; [exact T1|]. split; [exact T2|]. split; [exact T3|]. split; [exact T4|]. split; [exact F1|]. split; [exact F2|]. split; [exact F3|]. split; [exact F4|].
  unfold run_single_endian_test. rewrite T1, T2. cbn [andb]. rewrite C1. cbn [bind]. rewrite T3, T4. cbn [andb]. rewrite C2. reflexivity.
Qed.

Lemma tool_passes : forall tests, (forall x, In x tests -> (exists k i, whole_file k x i) /\ zlen x <= usize_max v1 /\ zlen x <= usize_max v2) ->
  handle_debug_command le be tests = Ok (ROk tt).
Proof.
  intros tests H. unfold handle_debug_command.
  assert (A : exists rs, run_all_endian_tests le be tests = Ok (ROk rs) /\ forall r, In r rs -> is_success r = true).
  { induction tests as [|f fs IH]; [exists []; split; [reflexivity|intros r []]|]. cbn [run_all_endian_tests].
    destruct (H f (or_introl eq_refl)) as ((k & i & WF) & L1 & L2). destruct (tool_single k f i WF L1 L2) as (_ & _ & _ & _ & _ & _ & _ & _ & _ & _ & _ & _ & E).
    rewrite E. cbn [bind]. destruct IH as (rs & E2 & S2); [intros g Hg; apply H; right; exact Hg|]. rewrite E2. cbn [bind]. eexists. split; [reflexivity|].
    intros q [<-|Hq]; [reflexivity|apply S2; exact Hq]. }
  destruct A as (rs & E & S). rewrite E. cbn [bind]. rewrite (proj2 (report_spec rs) S). reflexivity.
Qed.
End Command.

(** ** The files that are tested *)

Lemma ends_with_spec : forall s t, ends_with s t = true <-> exists r, s = String.append r t.
Proof.
  induction s as [|a s IH]; intros t; cbn [ends_with]; rewrite Bool.orb_true_iff, String.eqb_eq; split.
  - intros [->|Q]; [exists EmptyString; reflexivity|discriminate].
  - intros ([|b r] & E); [left; exact E|discriminate E].
  - intros [->|Q]; [exists EmptyString; reflexivity|]. apply IH in Q. destruct Q as (r & ->). exists (String a r). reflexivity.
  - intros ([|b r] & E); [left; exact E|]. right. cbn [String.append] in E. injection E as _ E. apply IH. exists r. exact E.
Qed.
Lemma insert_perm : forall p l, Permutation (insert_file p l) (p :: l).
Proof.
  intros p l. induction l as [|q l IH]; cbn [insert_file]; [reflexivity|]. destruct (name_le p q); [reflexivity|].
  rewrite IH. apply perm_swap.
Qed.
Lemma sort_perm : forall l, Permutation (fold_right insert_file [] l) l.
Proof. induction l as [|p l IH]; cbn [fold_right]; [reflexivity|]. rewrite insert_perm, IH. reflexivity. Qed.
Lemma compare_total : forall a b, String.compare a b = Gt -> String.compare b a <> Gt.
Proof. intros a b E Q. rewrite String.compare_antisym, E in Q. discriminate Q. Qed.
Lemma name_le_total : forall p q, name_le p q = false -> name_le q p = true.
Proof.
  intros p q. unfold name_le. destruct (file_name_of p) as [a|], (file_name_of q) as [b|]; try discriminate; [|reflexivity].
  destruct (String.compare a b) eqn:E; try discriminate. intros _. apply compare_total in E. destruct (String.compare b a); congruence.
Qed.
Lemma insert_sorted : forall p l, Sorted (fun a b => name_le a b = true) l -> Sorted (fun a b => name_le a b = true) (insert_file p l).
Proof.
  intros p l S. induction S as [|q l S IH H]; cbn [insert_file]; [constructor; constructor|].
  destruct (name_le p q) eqn:E; [constructor; [constructor; assumption|constructor; exact E]|].
  constructor; [exact IH|]. apply name_le_total in E. destruct l as [|r l]; cbn [insert_file]; [constructor; exact E|].
  inversion H; subst. destruct (name_le p r); constructor; assumption.
Qed.
Lemma sort_sorted : forall l, Sorted (fun a b => name_le a b = true) (fold_right insert_file [] l).
Proof. induction l as [|p l IH]; cbn [fold_right]; [constructor|]. apply insert_sorted, IH. Qed.
Lemma filter_files_spec : forall ext ns o l fs r, filter_files ext ns o l fs = Ok r ->
  (forall p, In p l -> exists b, is_test_file ext ns o p fs = Ok b) /\ forall f, (forall p, In p l -> is_test_file ext ns o p fs = Ok (f p)) -> r = filter f l.
Proof.
  intros ext ns o. induction l as [|p l IH]; intros fs r E; cbn [filter_files] in E.
  - injection E as <-. split; [intros p []|reflexivity].
  - destruct (is_test_file ext ns o p fs) as [b| |] eqn:B; cbn [bind] in E; try discriminate.
    destruct (filter_files ext ns o l fs) as [l'| |] eqn:F; cbn [bind] in E; try discriminate. destruct (IH _ _ F) as (I1 & I2). injection E as <-. split.
    + intros q [<-|Hq]; [exists b; exact B|exact (I1 q Hq)].
    + intros f Hf. cbn [filter]. rewrite <- (I2 f) by (intros q Hq; apply Hf; right; exact Hq).
      specialize (Hf p (or_introl eq_refl)). rewrite B in Hf. injection Hf as <-. reflexivity.
Qed.
Lemma name_of_spec : forall p name, file_name_of p = Some name <-> exists before, p = before ++ [name].
Proof.
  intros p name. unfold file_name_of. split.
  - destruct (rev p) as [|n r] eqn:E; [discriminate|]. intros Q. injection Q as <-. exists (rev r). rewrite <- (rev_involutive p), E. reflexivity.
  - intros (before & ->). rewrite rev_app_distr. reflexivity.
Qed.
Lemma is_test_spec : forall ext v o p fs, exists b, is_test_file ext (all_inspectors false v) o p fs = Ok b /\ (b = true <-> worth_testing ext o fs p).
Proof.
  intros ext v o p fs. unfold is_test_file. destruct (file_name_of p) as [name|] eqn:N.
  2:{ exists false. split; [reflexivity|]. split; [discriminate|]. intros (bf & nm & _ & _ & E & _). exfalso.
      assert (Q : file_name_of p = Some nm) by (apply name_of_spec; exists bf; exact E). congruence. }
  destruct (ends_with (to_lowercase name) ".dds") eqn:E; cbn [negb].
  2:{ exists false. split; [reflexivity|]. split; [discriminate|]. intros (bf & nm & st & _ & E1 & E2 & _). exfalso.
      assert (Q : file_name_of p = Some nm) by (apply name_of_spec; exists bf; exact E1).
      assert (nm = name) as -> by congruence.
      assert (Q2 : ends_with (to_lowercase name) ".dds" = true) by (apply ends_with_spec; exists st; exact E2). congruence. }
  apply ends_with_spec in E. destruct E as (stem & Es). apply name_of_spec in N. destruct N as (bf & Np).
  unfold is_supported_format, get_transform_format, map_input.
  destruct (fs (render p)) as [x|] eqn:F.
  2:{ exists false. split; [reflexivity|]. split; [discriminate|]. intros (_ & _ & _ & x & _ & _ & Q & _). congruence. }
  destruct (open_ok o (render p)) eqn:O.
  2:{ exists false. split; [reflexivity|]. split; [discriminate|]. intros (_ & _ & _ & _ & _ & _ & _ & Q & _). congruence. }
  destruct (map_ok o (render p)) eqn:M.
  2:{ exists false. split; [reflexivity|]. split; [discriminate|]. intros (_ & _ & _ & _ & _ & _ & _ & _ & Q & _). congruence. }
  cbn [andb format_loop all_inspectors]. cbn [n_can_handle n_format dds_inspector].
  pose proof (parse_dds_spec false x) as S.
  assert (C : dds_can_handle false x (ext (render p)) = Ok (dds_named (ext (render p)) && match parse_dds false x with Ok (Some _) => true | _ => false end)).
  { unfold dds_can_handle, dds_named. destruct (ext (render p)) as [e|]; [destruct (String.eqb e "dds"); cbn [negb andb]; [|reflexivity]|];
    (destruct (parse_dds false x) as [[i|]|y|y]; [reflexivity|reflexivity|destruct S as (S & _); discriminate S|destruct S]). }
  rewrite C. cbn [bind]. destruct (dds_named (ext (render p))) eqn:DN; cbn [andb].
  2:{ exists false. split; [reflexivity|]. split; [discriminate|]. intros (_ & _ & _ & _ & _ & _ & _ & _ & _ & Q & _). congruence. }
  destruct (parse_dds false x) as [[i|]|y|y] eqn:P; [|exists false; split; [reflexivity|]; split; [discriminate|]|destruct S as (S & _); discriminate S|destruct S].
  2:{ intros (_ & _ & _ & x' & _ & _ & Q & _ & _ & _ & Q1 & Q2 & _). rewrite F in Q. injection Q as <-. destruct S; congruence. }
  rewrite (get_format_eq false x AllFormats (Some i) P). destruct S as (S1 & S2 & _).
  destruct (stated_format x) eqn:SF; cbn [block_format filter_accepts bind];
    match goal with |- exists b, Ok ?c = Ok b /\ _ => exists c end; (split; [reflexivity|]); (split; [|try reflexivity]); try discriminate;
    try (intros _; exists bf, name, stem, x; repeat (split; [assumption|]); rewrite SF; auto);
    intros (_ & _ & _ & x' & _ & _ & Q & _ & _ & _ & _ & _ & Q1); rewrite F in Q; injection Q as <-; rewrite SF in Q1; destruct Q1; discriminate.
Qed.
Lemma sorted_by_name : forall l, Sorted (fun a b => name_le a b = true) l -> StronglySorted by_name l.
Proof.
  intros l S. apply Sorted_StronglySorted.
  - intros p q r. unfold by_name. destruct (rev p) as [|a p'], (rev q) as [|b q'], (rev r) as [|c' r']; try tauto.
    intros H1 H2. destruct (String.compare a b) eqn:E1; [|clear H1|congruence].
    + apply String.compare_eq_iff in E1. subst b. exact H2.
    + destruct (String.compare b c') eqn:E2; [|clear H2|congruence].
      * apply String.compare_eq_iff in E2. subst c'. rewrite E1. discriminate.
      * assert (T : String_as_OT.lt a c') by (eapply String_as_OT.lt_trans; apply String_as_OT.cmp_lt; [exact E1|exact E2]).
        apply String_as_OT.cmp_lt in T. change (String.compare a c' = Lt) in T. rewrite T. discriminate.
  - induction S as [|p l S IH H]; constructor; [exact IH|]. destruct H as [|q l H]; constructor.
    unfold name_le, file_name_of in H. unfold by_name. destruct (rev p), (rev q); try tauto; try discriminate. destruct (String.compare _ _); congruence.
Qed.
Lemma test_files_spec : forall ext v o assets t fs, exists l, get_test_files ext (all_inspectors false v) o assets t fs = Ok l /\
  (forall p, In p l <-> (exists r, p = assets ++ r /\ visible t r) /\ worth_testing ext o fs p) /\ StronglySorted by_name l /\ (real_tree t -> NoDup l).
Proof.
  intros ext v o assets t fs. unfold get_test_files.
  set (f p := match is_test_file ext (all_inspectors false v) o p fs with Ok b => b | _ => false end).
  assert (H : forall l, filter_files ext (all_inspectors false v) o l fs = Ok (filter f l)).
  { induction l as [|p l IH]; [reflexivity|]. cbn [filter_files filter]. unfold f at 1. destruct (is_test_spec ext v o p fs) as (b & -> & _). cbn [bind]. rewrite IH. reflexivity. }
  rewrite H. cbn [bind]. eexists. split; [reflexivity|].
  assert (P : forall l, Permutation (fold_right insert_file [] (filter f l)) (filter f l)) by (intros l; apply sort_perm).
  split; [|split; [apply sorted_by_name, sort_sorted|]].
  - intros p. rewrite <- found_visible. split.
    + intros Q. apply (Permutation_in _ (P _)) in Q. apply filter_In in Q. destruct Q as (Q & B). split; [exact Q|].
      unfold f in B. destruct (is_test_spec ext v o p fs) as (b & E & I). rewrite E in B. apply I, B.
    + intros (Q & W). apply (Permutation_in _ (Permutation_sym (P _))). apply filter_In. split; [exact Q|].
      unfold f. destruct (is_test_spec ext v o p fs) as (b & E & I). rewrite E. apply I, W.
  - intros R. apply (Permutation_NoDup (Permutation_sym (P _))). apply NoDup_filter, found_nodup, R.
Qed.
