(** C83: restoring BC1 textures when memory runs out. [room n] says whether [n]
    bytes can be allocated while restoring; [untransform_bc1_within room] and
    [dds_untransform_within room] are the functions of C01 and C26 with that
    allocation (Model/LowMemory.v). *)
From Verif Require Import Base.Bytes Base.Res Model.Color565 Model.Ycc Model.Kernel Model.Transform Model.Auto Model.Builders Model.Embed Model.Bundle Model.Dds
  Model.BigEndian Model.BeTransform Model.BeFiles Model.LowMemory Spec.Layout Spec.Estimator Spec.Files Spec.Dds Spec.LowMemory
  Proofs.DdsFacts Proofs.DdsHandler Proofs.DdsMore Proofs.BundleFacts Proofs.BigEndianFacts Proofs.LowMemoryFacts.
From Verif Require Import Props.PBc1 Props.PDds Props.Cases Props.CasesAuto.
From Coq Require Import String.
Open Scope string_scope.
Open Scope list_scope.
Open Scope Z_scope.

(** A machine that is not an x86, and a machine with no memory left. *)
Definition arm : cfg := Cfg false OtherArch false false false false false false false false x00.
Lemma arm_ok : cpu_ok arm.
Proof. constructor; cbn; (reflexivity || discriminate || auto). Qed.
Definition nothing_left (n : Z) : bool := false.

(** ** Textures *)

(** C83: restoring a texture needs memory exactly when the machine is not an
    x86, the colours are split and decorrelated and the texture has at least 1024
    bytes. Then a machine that cannot allocate as many bytes as the texture has
    panics; in every other case the texture is restored as ever. *)
Theorem C83_bc1_when : forall (room : Z -> bool) (c : cfg) (s : settings) (x out : list byte),
  zlen x mod 8 = 0 -> zlen x <= zlen out ->
  untransform_bc1_within room c s x out =
  if needs_memory (is_x86 c) s (zlen x) && negb (room (zlen x)) then Panic "Failed to allocate work buffer"
  else untransform_bc1 c s x out.
Proof. exact within_eq. Qed.
Print Assumptions C83_bc1_when.
Example C83_bc1_when_met : let x := Cases.texture 1024 in let out := x in
  zlen x mod 8 = 0 /\ zlen x <= zlen out /\ needs_memory (is_x86 arm) (Settings V2 true) (zlen x) = true /\ needs_memory (is_x86 arm) (Settings VNone true) (zlen x) = false.
Proof. cbv zeta. replace (zlen (Cases.texture 1024)) with 1024 by (vm_compute; reflexivity). repeat apply conj; (reflexivity || lia). Qed.

(** Texture data of the wrong length and outputs that are too small are refused
    as ever. *)
Theorem C83_bc1_refused : forall (room : Z -> bool) (c : cfg) (s : settings) (x out : list byte),
  zlen x mod 8 <> 0 \/ zlen out < zlen x -> untransform_bc1_within room c s x out = untransform_bc1 c s x out.
Proof. exact within_refused. Qed.
Print Assumptions C83_bc1_refused.
Example C83_bc1_refused_met : zlen (Cases.texture 12) mod 8 <> 0 /\ untransform_bc1 arm (Settings V1 true) (Cases.texture 12) (Cases.texture 16) = Ok (RErr (InvalidLength 12), Cases.texture 16).
Proof. split; [vm_compute; discriminate|vm_compute; reflexivity]. Qed.

(** On x86 nothing is allocated. *)
Theorem C83_bc1_x86 : forall (room : Z -> bool) (c : cfg) (s : settings) (x out : list byte),
  cpu_ok c -> is_x86 c = true -> (c_debug c = true -> split_colour_endpoints s = true -> x <> []) -> zlen x mod 8 = 0 -> zlen x <= zlen out ->
  exists y, untransform_bc1_within room c s x out = Ok (ROk tt, y) /\ untransform_bc1 c s x out = Ok (ROk tt, y) /\ zlen y = zlen out.
Proof.
  intros room c s x out K X N M L. rewrite within_eq by assumption. unfold needs_memory. rewrite X. cbn [negb andb].
  destruct (C48_bc1_untransform_total c s x out K N M L) as (y & E & Z). exists y. auto.
Qed.
Print Assumptions C83_bc1_x86.
Example C83_bc1_x86_met : let c := debug_cpu in let s := Settings V2 true in let x := Cases.texture 24 in
  cpu_ok c /\ is_x86 c = true /\ (c_debug c = true -> split_colour_endpoints s = true -> x <> []) /\ zlen x mod 8 = 0 /\ zlen x <= zlen x.
Proof. cbv zeta. split; [exact debug_ok|]. split; [reflexivity|]. split; [intros; discriminate|]. split; [reflexivity|lia]. Qed.

(** C83 fails elsewhere: every texture of at least 1024 bytes with split and
    decorrelated colours that can be restored at all makes a machine without
    memory panic, although the function returns errors otherwise. *)
Theorem C83_bc1_no_memory_refuted : forall (c : cfg) (s : settings) (x out : list byte),
  cpu_ok c -> is_x86 c = false -> split_colour_endpoints s = true -> decorrelation_mode s <> VNone -> zlen x mod 8 = 0 -> 1024 <= zlen x -> zlen x <= zlen out ->
  (exists y, untransform_bc1 c s x out = Ok (ROk tt, y)) /\ untransform_bc1_within nothing_left c s x out = Panic "Failed to allocate work buffer".
Proof.
  intros c s x out K X S V M L O. split.
  - destruct (C48_bc1_untransform_total c s x out K) as (y & E & _); [intros _ _ ->; cbn in L; lia|exact M|exact O|]. exists y. exact E.
  - rewrite within_eq by assumption. unfold needs_memory. rewrite X, S. replace (1024 <=? zlen x) with true by lia.
    destruct (decorrelation_mode s); (reflexivity || congruence).
Qed.
Print Assumptions C83_bc1_no_memory_refuted.
Example C83_bc1_no_memory_refuted_met : let c := arm in let s := Settings V1 true in let x := Cases.texture 1024 in
  cpu_ok c /\ is_x86 c = false /\ split_colour_endpoints s = true /\ decorrelation_mode s <> VNone /\ zlen x mod 8 = 0 /\ 1024 <= zlen x /\ zlen x <= zlen x.
Proof.
  cbv zeta. replace (zlen (Cases.texture 1024)) with 1024 by (vm_compute; reflexivity). split; [exact arm_ok|].
  split; [reflexivity|]. split; [reflexivity|]. split; [discriminate|]. split; [reflexivity|lia].
Qed.

(** The same on big-endian machines. *)
Theorem C83_be_bc1_when : forall (room : Z -> bool) (debug : bool) (junk : byte) (s : settings) (x out : list byte),
  zlen x mod 8 = 0 -> zlen x <= zlen out ->
  be_untransform_bc1_within room (big_endian_cpu debug junk) s x out =
  if needs_memory false s (zlen x) && negb (room (zlen x)) then Panic "Failed to allocate work buffer"
  else be_untransform_bc1 (big_endian_cpu debug junk) s x out.
Proof. intros room debug junk. exact (be_within_eq room (big_endian_cpu debug junk)). Qed.
Print Assumptions C83_be_bc1_when.
Example C83_be_bc1_when_met : let x := Cases.texture 1024 in
  zlen x mod 8 = 0 /\ zlen x <= zlen x /\ needs_memory false (Settings V3 true) (zlen x) = true.
Proof. cbv zeta. replace (zlen (Cases.texture 1024)) with 1024 by (vm_compute; reflexivity). repeat apply conj; (reflexivity || lia). Qed.

(** ** Files *)

(** C83: whatever bytes are given, running out of memory changes nothing but that
    a file marked as BC1 with split and decorrelated colours can panic, on a
    machine that is not an x86 and cannot allocate some number of bytes that is
    at least 1024 and at most the length of the file. *)
Theorem C83_dds_any : forall (room : Z -> bool) (c : cfg) (v : env) (x out : list byte),
  dds_untransform_within room c v x out = dds_untransform c v x out \/
  (dds_untransform_within room c v x out = Panic "Failed to allocate work buffer" /\
   exists s n, header_format (read_from_ptr x 0) = Some FBc1 /\ from_header bc1_details (read_from_ptr x 0) = ROk s /\
     n <= zlen x /\ needs_memory (is_x86 c) s n = true /\ room n = false).
Proof. exact dds_within_same. Qed.
Print Assumptions C83_dds_any.

(** A BC1 file that a machine restores with enough memory: without, it is restored
    just the same, or panics if its settings and size need memory. *)
Theorem C83_dds_when : forall (room : Z -> bool) (c : cfg) (v : env) (x out y : list byte) (s : settings) (i : dds_info),
  dds_untransform c v x out = Ok (ROk tt, y) -> read_from_ptr x 0 = codec_header CBc1 s ->
  parse_dds_ignore_magic (c_debug c) x = Ok (Some i) -> i_data_offset i + i_data_length i <= usize_max v ->
  dds_untransform_within room c v x out =
  if needs_memory (is_x86 c) s (i_data_length i) && negb (room (i_data_length i)) then Panic "Failed to allocate work buffer" else Ok (ROk tt, y).
Proof.
  intros room c v x out y s i H R P B. destruct (parse_facts _ _ _ P) as (_ & _ & _ & _ & L & O & _).
  destruct (codec_header_decodes CBc1 s) as [F D]. rewrite <- R in F, D.
  apply (dds_within_eq room c v x out y s i H F D P); lia.
Qed.
Print Assumptions C83_dds_when.

(** The same on big-endian machines. *)
Theorem C83_be_dds_any : forall (room : Z -> bool) (debug : bool) (junk : byte) (v : env) (x out : list byte),
  be_dds_untransform_within room (big_endian_cpu debug junk) v x out = be_dds_untransform (big_endian_cpu debug junk) v x out \/
  (be_dds_untransform_within room (big_endian_cpu debug junk) v x out = Panic "Failed to allocate work buffer" /\
   exists s n, header_format (read_from_ptr x 0) = Some FBc1 /\ from_header bc1_details (read_from_ptr x 0) = ROk s /\
     n <= zlen x /\ needs_memory false s n = true /\ room n = false).
Proof. intros room debug junk. exact (be_dds_within_same room (big_endian_cpu debug junk)). Qed.
Print Assumptions C83_be_dds_any.
Theorem C83_be_dds_when : forall (room : Z -> bool) (debug : bool) (junk : byte) (v : env) (x out y : list byte) (s : settings) (i : dds_info),
  be_dds_untransform (big_endian_cpu debug junk) v x out = Ok (ROk tt, y) -> read_from_ptr x 0 = codec_header CBc1 s ->
  parse_dds_ignore_magic debug x = Ok (Some i) -> i_data_offset i + i_data_length i <= usize_max v ->
  be_dds_untransform_within room (big_endian_cpu debug junk) v x out =
  if needs_memory false s (i_data_length i) && negb (room (i_data_length i)) then Panic "Failed to allocate work buffer" else Ok (ROk tt, y).
Proof.
  intros room debug junk v x out y s i H R P B. destruct (parse_facts _ _ _ P) as (_ & _ & _ & _ & L & O & _).
  destruct (codec_header_decodes CBc1 s) as [F D]. rewrite <- R in F, D.
  apply (be_dds_within_eq room (big_endian_cpu debug junk) v x out y s i H F D P); lia.
Qed.
Print Assumptions C83_be_dds_when.

(** ** Cases: 64 x 32 pixels of BC1, 1024 bytes, packed with colours split *)
Definition big_file : list byte := u32_bytes (codec_header CBc1 (Settings V1 true)) ++ skipn 4 (sample_header (four "DXT1") 64 32 1) ++ Cases.texture 1024.
Definition small_file : list byte := u32_bytes (codec_header CBc1 (Settings V1 true)) ++ skipn 4 (sample_header (four "DXT1") 8 8 1) ++ Cases.texture 32.

(** a file that panics with no memory left and not otherwise *)
Example C83_dds_any_case : dds_untransform_within nothing_left arm env64 big_file big_file = Panic "Failed to allocate work buffer" /\
  parse_dds_ignore_magic false big_file = Ok (Some (DdsInfo DBC1 128 1024)) /\ read_from_ptr big_file 0 = codec_header CBc1 (Settings V1 true).
Proof. repeat apply conj; vm_compute; reflexivity. Qed.
(** a small file, restored without memory *)
Example C83_dds_when_met : exists y i, dds_untransform arm env64 small_file small_file = Ok (ROk tt, y) /\ read_from_ptr small_file 0 = codec_header CBc1 (Settings V1 true) /\
  parse_dds_ignore_magic (c_debug arm) small_file = Ok (Some i) /\ i_data_offset i + i_data_length i <= usize_max env64 /\ y <> small_file /\
  dds_untransform_within nothing_left arm env64 small_file small_file = Ok (ROk tt, y).
Proof. do 2 eexists. split; [vm_compute; reflexivity|]. split; [vm_compute; reflexivity|]. split; [vm_compute; reflexivity|]. split; [vm_compute; discriminate|]. split; [discriminate|vm_compute; reflexivity]. Qed.
Example C83_be_dds_any_case : be_dds_untransform_within nothing_left (big_endian_cpu true x00) env64 big_file big_file = Panic "Failed to allocate work buffer".
Proof. vm_compute. reflexivity. Qed.
Example C83_be_dds_when_met : exists y i, be_dds_untransform (big_endian_cpu true x5a) env64 small_file small_file = Ok (ROk tt, y) /\ read_from_ptr small_file 0 = codec_header CBc1 (Settings V1 true) /\
  parse_dds_ignore_magic true small_file = Ok (Some i) /\ i_data_offset i + i_data_length i <= usize_max env64 /\ y <> small_file.
Proof. do 2 eexists. split; [vm_compute; reflexivity|]. split; [vm_compute; reflexivity|]. split; [vm_compute; reflexivity|]. split; [vm_compute; discriminate|discriminate]. Qed.
