(** C91 on big-endian machines, whose transformed textures are those of Spec/BigEndian.v. *)
From Verif Require Import Base.Bytes Base.Res Model.Color565 Model.Ycc Model.Kernel Model.Transform Model.Auto Model.Builders Model.Embed Model.Bundle Model.Dds Model.Calls
  Model.BigEndian Model.BeTransform Model.BeFiles
  Spec.Layout Spec.BigEndian Spec.Estimator Spec.Header Spec.Files Spec.BeFiles Spec.Dds Spec.Calls Spec.AnyFile Proofs.BigEndianFacts Proofs.BeAnyFile
  Props.Cases Props.CasesAuto Props.PDds.
From Coq Require Import String.
Open Scope list_scope.
Open Scope Z_scope.

Theorem C91_be_any_file : forall (d : bool) (j : byte) (v : env) (z out : list byte) (i : dds_info),
  let c := big_endian_cpu d j in
  parse_dds_ignore_magic d z = Ok (Some i) ->
  let off := i_data_offset i in let n := i_data_length i in
  off + n <= zlen z -> zlen z <= usize_max v -> zlen out = zlen z ->
  let headers := u32_bytes DDS_MAGIC ++ slice z 4 (off - 4) in
  let refused := headers ++ slice out off (zlen z - off) in
  match request_of (word z 0) with
  | NotKnown => be_dds_untransform c v z out = Ok (RErr UnknownTransformFormat, refused)
  | BadVersion => be_dds_untransform c v z out = Ok (RErr (EEmbed CorruptedEmbeddedData), refused)
  | Restore k s =>
      if n mod codec_block k =? 0
      then exists T, zlen T = n /\ be_texture_layout k s T = slice z off n /\
             be_dds_untransform c v z out = Ok (ROk tt, headers ++ T ++ slice z (off + n) (zlen z - (off + n)))
      else be_dds_untransform c v z out = Ok (RErr (InvalidDataAlignment n (codec_block k)), refused)
  end.
Proof. intros d j v z out i. exact (be_any_file (big_endian_cpu d j) v z out i (big_endian_ok d j)). Qed.
Print Assumptions C91_be_any_file.
(** a file that nobody transformed, with the header word of a BC2 file *)
Example C91_be_any_file_met :
  let v := env32 in let z := with_word [x41; x01; xff; xff] file1 in let out := numbers 163 in let i := info_of file1 in
  let off := i_data_offset i in let n := i_data_length i in
  parse_dds_ignore_magic true z = Ok (Some i) /\ off + n <= zlen z /\ zlen z <= usize_max v /\ zlen out = zlen z /\
  request_of (word z 0) = Restore CBc2 (Settings V3 true) /\ n mod codec_block CBc2 = 0.
Proof. met. Qed.

Theorem C91_be_header_damage : forall (St Er : Type) (show : Er -> string) (d1 d2 : bool) (j1 j2 : byte) (v1 v2 : env) (t : bundle St Er)
    (x out : list byte) (st st' : St) (y : list byte) (i : dds_info) (h out2 : list byte),
  let c1 := big_endian_cpu d1 j1 in let c2 := big_endian_cpu d2 j2 in
  parse_dds d1 x = Ok (Some i) -> (d2 = true -> d1 = false -> levels_fit x) -> 2 ^ 32 - 1 <= usize_max v1 ->
  be_dds_transform_bundle show c1 v1 t x out st = Ok (ROk tt, y, st') ->
  zlen h = 4 -> zlen x <= usize_max v2 -> zlen out2 = zlen x ->
  let off := i_data_offset i in let n := i_data_length i in let z := with_word h (firstn (List.length x) y) in
  exists k0 s0, request_of (word y 0) = Restore k0 s0 /\ slice y off n = be_texture_layout k0 s0 (slice x off n) /\
    match request_of (word h 0) with
    | NotKnown => exists o, be_dds_untransform c2 v2 z out2 = Ok (RErr UnknownTransformFormat, o)
    | BadVersion => exists o, be_dds_untransform c2 v2 z out2 = Ok (RErr (EEmbed CorruptedEmbeddedData), o)
    | Restore k s =>
        if n mod codec_block k =? 0
        then exists T, zlen T = n /\ be_texture_layout k s T = slice y off n /\
               (T = slice x off n <-> be_texture_layout k s (slice x off n) = slice y off n) /\
               be_dds_untransform c2 v2 z out2 = Ok (ROk tt, slice x 0 off ++ T ++ slice x (off + n) (zlen x - (off + n)))
        else exists o, be_dds_untransform c2 v2 z out2 = Ok (RErr (InvalidDataAlignment n (codec_block k)), o)
    end.
Proof.
  intros St Er show d1 d2 j1 j2 v1 v2 t x out st st' y i h out2.
  exact (be_header_damage St Er show (big_endian_cpu d1 j1) (big_endian_cpu d2 j2) v1 v2 t x out st st' y i h out2 (big_endian_ok d1 j1) (big_endian_ok d2 j2)).
Qed.
Print Assumptions C91_be_header_damage.

Theorem C91_be_reserved_bits : forall (St Er : Type) (show : Er -> string) (d1 d2 : bool) (j1 j2 : byte) (v1 v2 : env) (t : bundle St Er)
    (x out : list byte) (st st' : St) (y : list byte) (i : dds_info) (h out2 : list byte),
  let c1 := big_endian_cpu d1 j1 in let c2 := big_endian_cpu d2 j2 in
  parse_dds d1 x = Ok (Some i) -> (d2 = true -> d1 = false -> levels_fit x) -> 2 ^ 32 - 1 <= usize_max v1 ->
  be_dds_transform_bundle show c1 v1 t x out st = Ok (ROk tt, y, st') ->
  zlen h = 4 -> zlen x <= usize_max v2 -> zlen out2 = zlen x -> bits (word h 0) 0 9 = bits (word y 0) 0 9 ->
  be_dds_untransform c2 v2 (with_word h (firstn (List.length x) y)) out2 = Ok (ROk tt, x).
Proof.
  intros St Er show d1 d2 j1 j2 v1 v2 t x out st st' y i h out2.
  exact (be_reserved_bits St Er show (big_endian_cpu d1 j1) (big_endian_cpu d2 j2) v1 v2 t x out st st' y i h out2 (big_endian_ok d1 j1) (big_endian_ok d2 j2)).
Qed.
Print Assumptions C91_be_reserved_bits.
Definition be_transformed1 := left_by (be_dds_transform_bundle (fun _ : unit => EmptyString) (big_endian_cpu true x00) env64 (manual CBc1) file1 file1 tt).
Example C91_be_reserved_bits_met :
  let show := (fun _ : unit => EmptyString) in let v1 := env64 in let v2 := env32 in let t := manual CBc1 in
  let x := file1 in let out := file1 in let st := tt in let st' := tt in let y := be_transformed1 in let i := info_of x in let h := [xc0; xfe; xff; xff] in let out2 := numbers 163 in
  parse_dds true x = Ok (Some i) /\ (false = true -> true = false -> levels_fit x) /\ 2 ^ 32 - 1 <= usize_max v1 /\
  be_dds_transform_bundle show (big_endian_cpu true x00) v1 t x out st = Ok (ROk tt, y, st') /\
  zlen h = 4 /\ zlen x <= usize_max v2 /\ zlen out2 = zlen x /\ bits (word h 0) 0 9 = bits (word y 0) 0 9.
Proof. met_dds. Qed.

Theorem C91_be_recovered : forall (St Er : Type) (show : Er -> string) (d1 d2 : bool) (j1 j2 : byte) (v1 v2 : env) (t : bundle St Er)
    (x out : list byte) (st st' : St) (y : list byte) (i : dds_info) (h out2 o : list byte) (k k0 : codec) (s s0 : settings),
  let c1 := big_endian_cpu d1 j1 in let c2 := big_endian_cpu d2 j2 in
  parse_dds d1 x = Ok (Some i) -> 0 < i_data_length i -> (d2 = true -> d1 = false -> levels_fit x) -> 2 ^ 32 - 1 <= usize_max v1 ->
  be_dds_transform_bundle show c1 v1 t x out st = Ok (ROk tt, y, st') ->
  zlen h = 4 -> zlen x <= usize_max v2 -> zlen out2 = zlen x ->
  let off := i_data_offset i in let n := i_data_length i in
  be_dds_untransform c2 v2 (with_word h (firstn (List.length x) y)) out2 = Ok (ROk tt, o) ->
  request_of (word h 0) = Restore k s -> request_of (word y 0) = Restore k0 s0 ->
  forall (d3 d4 : bool) (j3 j4 : byte) (o1 o2 : list byte), n <= zlen o1 -> n <= zlen o2 ->
  performs [Call (Big d3 j3) (job_of k s) false o1; Call (Big d4 j4) (job_of k0 s0) true o2] (slice o off n) = Ok (ROk (slice x off n)).
Proof.
  intros St Er show d1 d2 j1 j2 v1 v2 t x out st st' y i h out2 o k k0 s s0.
  exact (be_recovered St Er show (big_endian_cpu d1 j1) (big_endian_cpu d2 j2) v1 v2 t x out st st' y i h out2 o k k0 s s0 (big_endian_ok d1 j1) (big_endian_ok d2 j2)).
Qed.
Print Assumptions C91_be_recovered.
(** a header with one wrong bit is accepted, the texture is wrong, and is mended *)
Example C91_be_recovered_example :
  let h := [x40; x00; x00; x00] in let o := left_in (be_dds_untransform (big_endian_cpu false x00) env64 (with_word h be_transformed1) be_transformed1) in
  o <> file1 /\ zlen o = zlen file1 /\ request_of (word h 0) = Restore CBc1 (Settings V1 true) /\ request_of (word be_transformed1 0) = Restore CBc1 (Settings V2 true) /\
  performs [Call (Big false x00) (job_of CBc1 (Settings V1 true)) false (numbers 32); Call (Big true x00) (job_of CBc1 (Settings V2 true)) true (numbers 40)]
    (slice o 128 32) = Ok (ROk (slice file1 128 32)).
Proof. split; [vm_compute; intros H; discriminate H|]. split; [vm_compute; reflexivity|]. split; [vm_compute; reflexivity|]. split; vm_compute; reflexivity. Qed.
