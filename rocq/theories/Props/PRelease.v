(** C84: debug builds do what release builds do, or panic. [release_build c] is
    the same machine with the program built for release; [same_or_panics]
    compares everything a call returns and leaves behind (Spec/Release.v). *)
From Verif Require Import Base.Bytes Base.Res Model.Color565 Model.Ycc Model.Kernel Model.Transform Model.Auto Model.Builders Model.Embed Model.Bundle Model.Dds Model.Handlers
  Model.BigEndian Model.BeTransform Model.BeFiles
  Spec.Layout Spec.Estimator Spec.Files Spec.Dds Spec.Release Proofs.DdsFacts Proofs.DdsHandler Proofs.BigEndianFacts Proofs.ReleaseFacts Proofs.BeReleaseFacts.
From Verif Require Import Props.PDds Props.PFiles Props.Cases Props.CasesAuto.
From Coq Require Import String.
Open Scope string_scope.
Open Scope list_scope.
Open Scope Z_scope.

(** ** Textures *)

(** C84: for every input, valid or not. *)
Theorem C84_bc1 : forall (c : cfg) (s : settings) (x out : list byte), cpu_ok c ->
  same_or_panics (transform_bc1 c s x out) (transform_bc1 (release_build c) s x out) /\
  same_or_panics (untransform_bc1 c s x out) (untransform_bc1 (release_build c) s x out).
Proof. intros c s x out K. split; [exact (slice1 c s x out K)|exact (unslice1 c s x out K)]. Qed.
Print Assumptions C84_bc1.
(** three blocks, where both do the same; no blocks, where the debug build panics *)
Example C84_bc1_met : let c := debug_cpu in let s := Settings V1 true in
  cpu_ok c /\ c_debug c = true /\ c_debug (release_build c) = false /\
  (exists y, transform_bc1 c s (texture 24) (texture 24) = Ok (ROk tt, y) /\ y <> texture 24) /\ (exists why, transform_bc1 c s [] [] = Panic why).
Proof.
  cbv zeta. split; [exact debug_ok|]. split; [reflexivity|]. split; [reflexivity|].
  split; [eexists; split; [vm_compute; reflexivity|discriminate]|eexists; vm_compute; reflexivity].
Qed.

(** Transforming BC2 never panics in a debug build either. *)
Theorem C84_bc2 : forall (c : cfg) (s : settings) (x out : list byte), supported c ->
  transform_bc2 c s x out = transform_bc2 (release_build c) s x out /\
  same_or_panics (untransform_bc2 c s x out) (untransform_bc2 (release_build c) s x out).
Proof. intros c s x out K. split; [exact (slice2 c s x out K)|exact (unslice2 c s x out (proj1 K))]. Qed.
Print Assumptions C84_bc2.
Example C84_bc2_met : let c := debug_cpu in let s := Settings V1 true in
  supported c /\ c_debug c = true /\ (exists y, transform_bc2 c s (texture 48) (texture 48) = Ok (ROk tt, y) /\ y <> texture 48).
Proof. cbv zeta. split; [exact debug_supported|]. split; [reflexivity|]. eexists; split; [vm_compute; reflexivity|discriminate]. Qed.

(** Restoring BC3 never panics in a debug build either. *)
Theorem C84_bc3 : forall (c : cfg) (s : settings3) (x out : list byte), cpu_ok c ->
  same_or_panics (transform_bc3 c s x out) (transform_bc3 (release_build c) s x out) /\
  untransform_bc3 c s x out = untransform_bc3 (release_build c) s x out.
Proof. intros c s x out K. split; [exact (slice3 c s x out K)|exact (unslice3 c s x out K)]. Qed.
Print Assumptions C84_bc3.
Example C84_bc3_met : let c := debug_cpu in let s := Settings3 VNone true false in
  cpu_ok c /\ c_debug c = true /\ (exists y, untransform_bc3 c s (texture 48) (texture 48) = Ok (ROk tt, y) /\ y <> texture 48) /\
  (exists why, transform_bc3 c s [] [] = Panic why).
Proof.
  cbv zeta. split; [exact debug_ok|]. split; [reflexivity|].
  split; [eexists; split; [vm_compute; reflexivity|discriminate]|eexists; vm_compute; reflexivity].
Qed.

(** C84, searching for settings, with any estimator: the same calls to the
    estimator, the same choice and the same bytes. *)
Theorem C84_auto : forall (St Er : Type) (c : cfg) (v : env) (e : estimator St Er) (use_all : bool) (x out : list byte) (st : St), supported c ->
  same_or_panics (transform_bc1_auto c v e use_all x out st) (transform_bc1_auto (release_build c) v e use_all x out st) /\
  same_or_panics (transform_bc2_auto c v e use_all x out st) (transform_bc2_auto (release_build c) v e use_all x out st) /\
  same_or_panics (transform_bc3_auto c v e use_all x out st) (transform_bc3_auto (release_build c) v e use_all x out st).
Proof.
  intros St Er c v e all x out st K. split; [exact (auto1 c v e all x out st (proj1 K))|].
  split; [exact (auto2 c v e all x out st K)|exact (auto3 c v e all x out st (proj1 K))].
Qed.
Print Assumptions C84_auto.
(** an estimator that counts its calls *)
Example C84_auto_met : let c := debug_cpu in
  supported c /\ c_debug c = true /\ exists s y, transform_bc1_auto c roomy counts true (texture 24) (texture 24) 0 = Ok (ROk s, y, 9).
Proof. cbv zeta. split; [exact debug_supported|]. split; [reflexivity|]. do 2 eexists. vm_compute. reflexivity. Qed.

(** ** Files *)

(** C84, looking at a file. *)
Theorem C84_parse : forall (debug : bool) (x : list byte) (ext : option string) (v : env) (f : format_filter),
  same_or_panics (parse_dds debug x) (parse_dds false x) /\
  same_or_panics (dds_can_handle debug x ext) (dds_can_handle false x ext) /\
  same_or_panics (dds_can_handle_untransform debug x ext) (dds_can_handle_untransform false x ext) /\
  same_or_panics (dds_extract_blocks debug v x f) (dds_extract_blocks false v x f).
Proof.
  intros d x ext v f. split; [exact (parse_agree d x)|]. split; [exact (can_agree d x ext)|].
  split; [exact (can_un_agree d x ext)|exact (extract_agree d v x f)].
Qed.
Print Assumptions C84_parse.
Example C84_parse_case : dds_can_handle true file1 (Some "dds") = Ok true /\ dds_can_handle false file1 (Some "dds") = Ok true /\
  let big := sample_header (four "DXT1") (2 ^ 18) (2 ^ 18) 1 in (exists why, dds_can_handle true big None = Panic why) /\ dds_can_handle false big None = Ok true.
Proof. cbv zeta. split; [vm_compute; reflexivity|]. split; [vm_compute; reflexivity|]. split; [eexists; vm_compute; reflexivity|vm_compute; reflexivity]. Qed.

(** C84, transforming and restoring files in memory. *)
Theorem C84_dds : forall (St Er : Type) (show : Er -> string) (c : cfg) (v : env) (t : bundle St Er) (x out : list byte) (st : St), supported c ->
  same_or_panics (dds_transform_bundle show c v t x out st) (dds_transform_bundle show (release_build c) v t x out st) /\
  same_or_panics (dds_untransform c v x out) (dds_untransform (release_build c) v x out).
Proof. intros St Er show c v t x out st K. split; [exact (dds_agree St Er show c v t x out st K)|exact (undds_agree c v x out (proj1 K))]. Qed.
Print Assumptions C84_dds.
(** a file and one whose texture is empty *)
Example C84_dds_met : let c := debug_cpu in let f := fun _ : unit => EmptyString in let t := manual CBc1 in let none := sample_header (four "DXT1") 0 0 1 in
  supported c /\ c_debug c = true /\
  (exists y, dds_transform_bundle f c env64 t file1 file1 tt = Ok (ROk tt, y, tt) /\ y <> file1) /\
  (exists why, dds_transform_bundle f c env64 t none none tt = Panic why) /\
  (exists y, dds_transform_bundle f (release_build c) env64 t none none tt = Ok (ROk tt, y, tt)).
Proof.
  cbv zeta. split; [exact debug_supported|]. split; [reflexivity|].
  split; [eexists; split; [vm_compute; reflexivity|discriminate]|]. split; eexists; vm_compute; reflexivity.
Qed.

(** C84, transforming and restoring files on disk: also the same files there. *)
Theorem C84_files : forall (St Er : Type) (show : Er -> string) (c : cfg) (v : env) (o : io) (ip op : string) (x out : list byte) (b : bundle St Er) (fs : files) (st : St),
  supported c ->
  let h := dds_handler show c v in let h' := dds_handler show (release_build c) v in
  same_or_panics (transform_file_with_handler o h ip op b fs st) (transform_file_with_handler o h' ip op b fs st) /\
  same_or_panics (untransform_file_with_handler o h ip op fs st) (untransform_file_with_handler o h' ip op fs st) /\
  same_or_panics (transform_file_to_slice_with_handler o h ip out b fs st) (transform_file_to_slice_with_handler o h' ip out b fs st) /\
  same_or_panics (untransform_file_to_slice_with_handler o h ip out fs st) (untransform_file_to_slice_with_handler o h' ip out fs st) /\
  same_or_panics (transform_slice_to_file_with_handler o h x op b fs st) (transform_slice_to_file_with_handler o h' x op b fs st) /\
  same_or_panics (untransform_slice_to_file_with_handler o h x op fs st) (untransform_slice_to_file_with_handler o h' x op fs st).
Proof.
  intros St Er show c v o ip op x out b fs st K h h'. pose proof (h_files show c v K o ip op b fs st) as [A B].
  pose proof (h_to_slice show c v K o ip out b fs st) as [C D]. pose proof (h_from_slice show c v K o x op b fs st) as [E F].
  repeat apply conj; assumption.
Qed.
Print Assumptions C84_files.
(** a file on disk, in a debug build *)
Example C84_files_met : let c := debug_cpu in let f := fun _ : unit => EmptyString in
  supported c /\ c_debug c = true /\
  exists fs1, transform_file_with_handler disk (dds_handler f c env64) "a.dds" "t.dds" (manual CBc1) dir tt = Ok (ROk tt, fs1, tt) /\ fs1 "t.dds" <> dir "a.dds".
Proof. cbv zeta. split; [exact debug_supported|]. split; [reflexivity|]. eexists. split; [vm_compute; reflexivity|vm_compute; discriminate]. Qed.

(** ** Big-endian machines *)

(** C84: there no texture makes a debug build panic. *)
Theorem C84_big_endian_textures : forall (c : cfg) (s : settings) (s3 : settings3) (x out : list byte), cpu_ok c ->
  be_transform_bc1 c s x out = be_transform_bc1 (release_build c) s x out /\ be_untransform_bc1 c s x out = be_untransform_bc1 (release_build c) s x out /\
  be_transform_bc2 c s x out = be_transform_bc2 (release_build c) s x out /\ be_untransform_bc2 c s x out = be_untransform_bc2 (release_build c) s x out /\
  be_transform_bc3 c s3 x out = be_transform_bc3 (release_build c) s3 x out /\ be_untransform_bc3 c s3 x out = be_untransform_bc3 (release_build c) s3 x out.
Proof.
  intros c s s3 x out K. repeat apply conj;
    [exact (be_slice1 c s x out K)|exact (be_unslice1 c s x out K)|exact (be_slice2 c s x out K)|exact (be_unslice2 c s x out K)
    |exact (be_slice3 c s3 x out K)|exact (be_unslice3 c s3 x out K)].
Qed.
Print Assumptions C84_big_endian_textures.
Definition be_debug : cfg := big_endian_cpu true x5a.
Example C84_big_endian_textures_met : cpu_ok be_debug /\ c_debug be_debug = true /\ release_build be_debug = big_endian_cpu false x5a /\
  be_transform_bc1 be_debug (Settings V1 true) [] [] = Ok (ROk tt, []).
Proof. split; [exact (big_endian_ok true x5a)|]. split; [reflexivity|]. split; [reflexivity|]. vm_compute. reflexivity. Qed.

Theorem C84_big_endian_auto : forall (St Er : Type) (c : cfg) (v : env) (e : estimator St Er) (use_all : bool) (x out : list byte) (st : St), cpu_ok c ->
  same_or_panics (be_transform_bc1_auto c v e use_all x out st) (be_transform_bc1_auto (release_build c) v e use_all x out st) /\
  same_or_panics (be_transform_bc2_auto c v e use_all x out st) (be_transform_bc2_auto (release_build c) v e use_all x out st) /\
  same_or_panics (be_transform_bc3_auto c v e use_all x out st) (be_transform_bc3_auto (release_build c) v e use_all x out st).
Proof.
  intros St Er c v e all x out st K. split; [exact (be_auto1 c v e all x out st K)|].
  split; [exact (be_auto2 c v e all x out st K)|exact (be_auto3 c v e all x out st K)].
Qed.
Print Assumptions C84_big_endian_auto.
Example C84_big_endian_auto_met : cpu_ok be_debug /\ exists s y, be_transform_bc1_auto be_debug roomy counts true (texture 24) (texture 24) 0 = Ok (ROk s, y, 9).
Proof. split; [exact (big_endian_ok true x5a)|]. do 2 eexists. vm_compute. reflexivity. Qed.

Theorem C84_big_endian_files : forall (St Er : Type) (show : Er -> string) (c : cfg) (v : env) (o : io) (ip op : string) (x out : list byte) (b : bundle St Er) (fs : files) (st : St),
  cpu_ok c ->
  let h := be_dds_handler show c v in let h' := be_dds_handler show (release_build c) v in
  same_or_panics (be_dds_transform_bundle show c v b x out st) (be_dds_transform_bundle show (release_build c) v b x out st) /\
  same_or_panics (be_dds_untransform c v x out) (be_dds_untransform (release_build c) v x out) /\
  same_or_panics (transform_file_with_handler o h ip op b fs st) (transform_file_with_handler o h' ip op b fs st) /\
  same_or_panics (untransform_file_with_handler o h ip op fs st) (untransform_file_with_handler o h' ip op fs st) /\
  same_or_panics (transform_file_to_slice_with_handler o h ip out b fs st) (transform_file_to_slice_with_handler o h' ip out b fs st) /\
  same_or_panics (untransform_file_to_slice_with_handler o h ip out fs st) (untransform_file_to_slice_with_handler o h' ip out fs st) /\
  same_or_panics (transform_slice_to_file_with_handler o h x op b fs st) (transform_slice_to_file_with_handler o h' x op b fs st) /\
  same_or_panics (untransform_slice_to_file_with_handler o h x op fs st) (untransform_slice_to_file_with_handler o h' x op fs st).
Proof.
  intros St Er show c v o ip op x out b fs st K h h'. pose proof (be_h_files show c v K o ip op b fs st) as [A B].
  pose proof (be_h_to_slice show c v K o ip out b fs st) as [C D]. pose proof (be_h_from_slice show c v K o x op b fs st) as [E F].
  pose proof (be_dds_agree St Er show c v b x out st K) as G. pose proof (be_undds_agree c v x out K) as H.
  repeat apply conj; assumption.
Qed.
Print Assumptions C84_big_endian_files.
Example C84_big_endian_files_met : let f := fun _ : unit => EmptyString in cpu_ok be_debug /\
  exists fs1, transform_file_with_handler disk (be_dds_handler f be_debug env64) "a.dds" "t.dds" (manual CBc1) dir tt = Ok (ROk tt, fs1, tt) /\ fs1 "t.dds" <> dir "a.dds".
Proof. cbv zeta. split; [exact (big_endian_ok true x5a)|]. eexists. split; [vm_compute; reflexivity|vm_compute; discriminate]. Qed.
