(** C91: what restoring makes of any DDS file, and of a damaged header word. *)
From Verif Require Import Base.Bytes Base.Res Model.Color565 Model.Ycc Model.Kernel Model.Transform Model.Auto Model.Builders Model.Embed Model.Bundle Model.Dds Model.Calls.
From Verif Require Import Spec.Layout Spec.Estimator Spec.Header Spec.Files Spec.Dds Spec.Calls Spec.AnyFile Proofs.AnyFile Props.Cases Props.CasesAuto Props.PDds.

(** The whole answer for every file with complete headers and a whole texture: it
    is decided by nine bits of the first four bytes. The headers are written even
    when the file is refused. *)
Theorem C91_any_file : forall (c : cfg) (v : env) (z out : list byte) (i : dds_info),
  supported c -> parse_dds_ignore_magic (c_debug c) z = Ok (Some i) -> (c_debug c = true -> 0 < i_data_length i) ->
  let off := i_data_offset i in let n := i_data_length i in
  off + n <= zlen z -> zlen z <= usize_max v -> zlen out = zlen z ->
  let headers := u32_bytes DDS_MAGIC ++ slice z 4 (off - 4) in
  let refused := headers ++ slice out off (zlen z - off) in
  match request_of (word z 0) with
  | NotKnown => dds_untransform c v z out = Ok (RErr UnknownTransformFormat, refused)
  | BadVersion => dds_untransform c v z out = Ok (RErr (EEmbed CorruptedEmbeddedData), refused)
  | Restore k s =>
      if n mod codec_block k =? 0
      then exists T, zlen T = n /\ texture_layout k s T = slice z off n /\
             dds_untransform c v z out = Ok (ROk tt, headers ++ T ++ slice z (off + n) (zlen z - (off + n)))
      else dds_untransform c v z out = Ok (RErr (InvalidDataAlignment n (codec_block k)), refused)
  end.
Proof. exact any_file. Qed.
Print Assumptions C91_any_file.
(** a file that nobody transformed, with the header word of a BC2 file *)
Example C91_any_file_met :
  let c := debug_cpu in let v := env32 in let z := with_word [x41; x01; xff; xff] file1 in let out := numbers 163 in let i := info_of file1 in
  let off := i_data_offset i in let n := i_data_length i in
  supported c /\ parse_dds_ignore_magic (c_debug c) z = Ok (Some i) /\ (c_debug c = true -> 0 < i_data_length i) /\
  off + n <= zlen z /\ zlen z <= usize_max v /\ zlen out = zlen z /\ request_of (word z 0) = Restore CBc2 (Settings V3 true).
Proof. met. Qed.

(** A transformed file [y] whose first four bytes were replaced by any [h]: either
    it is refused, or it is restored up to its texture; and the texture is right
    exactly when both settings give it the same transformed form. *)
Theorem C91_header_damage : forall (St Er : Type) (show : Er -> string) (c1 c2 : cfg) (v1 v2 : env) (t : bundle St Er)
    (x out : list byte) (st st' : St) (y : list byte) (i : dds_info) (h out2 : list byte),
  supported c1 -> supported c2 -> parse_dds (c_debug c1) x = Ok (Some i) ->
  (c_debug c1 = true \/ c_debug c2 = true -> 0 < i_data_length i) -> (c_debug c2 = true -> c_debug c1 = false -> levels_fit x) ->
  2 ^ 32 - 1 <= usize_max v1 ->
  dds_transform_bundle show c1 v1 t x out st = Ok (ROk tt, y, st') ->
  zlen h = 4 -> zlen x <= usize_max v2 -> zlen out2 = zlen x ->
  let off := i_data_offset i in let n := i_data_length i in let z := with_word h (firstn (List.length x) y) in
  exists k0 s0, request_of (word y 0) = Restore k0 s0 /\ slice y off n = texture_layout k0 s0 (slice x off n) /\
    match request_of (word h 0) with
    | NotKnown => exists o, dds_untransform c2 v2 z out2 = Ok (RErr UnknownTransformFormat, o)
    | BadVersion => exists o, dds_untransform c2 v2 z out2 = Ok (RErr (EEmbed CorruptedEmbeddedData), o)
    | Restore k s =>
        if n mod codec_block k =? 0
        then exists T, zlen T = n /\ texture_layout k s T = slice y off n /\
               (T = slice x off n <-> texture_layout k s (slice x off n) = slice y off n) /\
               dds_untransform c2 v2 z out2 = Ok (ROk tt, slice x 0 off ++ T ++ slice x (off + n) (zlen x - (off + n)))
        else exists o, dds_untransform c2 v2 z out2 = Ok (RErr (InvalidDataAlignment n (codec_block k)), o)
    end.
Proof. exact header_damage. Qed.
Print Assumptions C91_header_damage.

(** Damage to the reserved bits is harmless. *)
Theorem C91_reserved_bits : forall (St Er : Type) (show : Er -> string) (c1 c2 : cfg) (v1 v2 : env) (t : bundle St Er)
    (x out : list byte) (st st' : St) (y : list byte) (i : dds_info) (h out2 : list byte),
  supported c1 -> supported c2 -> parse_dds (c_debug c1) x = Ok (Some i) ->
  (c_debug c1 = true \/ c_debug c2 = true -> 0 < i_data_length i) -> (c_debug c2 = true -> c_debug c1 = false -> levels_fit x) ->
  2 ^ 32 - 1 <= usize_max v1 ->
  dds_transform_bundle show c1 v1 t x out st = Ok (ROk tt, y, st') ->
  zlen h = 4 -> zlen x <= usize_max v2 -> zlen out2 = zlen x ->
  bits (word h 0) 0 9 = bits (word y 0) 0 9 ->
  dds_untransform c2 v2 (with_word h (firstn (List.length x) y)) out2 = Ok (ROk tt, x).
Proof. exact reserved_bits. Qed.
Print Assumptions C91_reserved_bits.
Definition transformed1 := left_by (dds_transform_bundle (fun _ : unit => EmptyString) debug_cpu env64 (manual CBc1) file1 file1 tt).
(** every reserved bit is damaged *)
Example C91_reserved_bits_met :
  let show := (fun _ : unit => EmptyString) in let c1 := debug_cpu in let c2 := slow_cpu in let v1 := env64 in let v2 := env32 in let t := manual CBc1 in
  let x := file1 in let out := file1 in let st := tt in let st' := tt in let y := transformed1 in let i := info_of x in let h := [xc0; xfe; xff; xff] in let out2 := numbers 163 in
  supported c1 /\ supported c2 /\ parse_dds (c_debug c1) x = Ok (Some i) /\ (c_debug c1 = true \/ c_debug c2 = true -> 0 < i_data_length i) /\
  (c_debug c2 = true -> c_debug c1 = false -> levels_fit x) /\ 2 ^ 32 - 1 <= usize_max v1 /\ dds_transform_bundle show c1 v1 t x out st = Ok (ROk tt, y, st') /\
  zlen h = 4 /\ zlen x <= usize_max v2 /\ zlen out2 = zlen x /\ bits (word h 0) 0 9 = bits (word y 0) 0 9.
Proof. met_dds. Qed.

(** What was restored under a wrong header is not lost: transforming the texture
    as the wrong header says and untransforming it as the right one says gives
    the original texture. *)
Theorem C91_recovered : forall (St Er : Type) (show : Er -> string) (c1 c2 : cfg) (v1 v2 : env) (t : bundle St Er)
    (x out : list byte) (st st' : St) (y : list byte) (i : dds_info) (h out2 o : list byte) (k k0 : codec) (s s0 : settings),
  supported c1 -> supported c2 -> parse_dds (c_debug c1) x = Ok (Some i) ->
  0 < i_data_length i -> (c_debug c2 = true -> c_debug c1 = false -> levels_fit x) ->
  2 ^ 32 - 1 <= usize_max v1 ->
  dds_transform_bundle show c1 v1 t x out st = Ok (ROk tt, y, st') ->
  zlen h = 4 -> zlen x <= usize_max v2 -> zlen out2 = zlen x ->
  let off := i_data_offset i in let n := i_data_length i in
  dds_untransform c2 v2 (with_word h (firstn (List.length x) y)) out2 = Ok (ROk tt, o) ->
  request_of (word h 0) = Restore k s -> request_of (word y 0) = Restore k0 s0 ->
  forall (c3 c4 : cfg) (o1 o2 : list byte), supported c3 -> supported c4 -> n <= zlen o1 -> n <= zlen o2 ->
  performs [Call (Little c3) (job_of k s) false o1; Call (Little c4) (job_of k0 s0) true o2] (slice o off n) = Ok (ROk (slice x off n)).
Proof. exact recovered. Qed.
Print Assumptions C91_recovered.

(** One flipped bit of the word that a transform writes: bits 1 to 5 are noticed,
    bits 9 to 31 do not matter, and bits 0, 6, 7 and 8 ask for something else. *)
Theorem C91_bit_flips : forall (k : codec) (s : settings) (b : Z), 0 <= b < 32 ->
  request_of (Z.lxor (codec_header k s) (2 ^ b)) =
    if b =? 0 then Restore (match k with CBc1 => CBc2 | CBc2 => CBc1 end) s
    else if b <? 4 then NotKnown
    else if b <? 6 then BadVersion
    else if b =? 6 then Restore k (Settings (decorrelation_mode s) (negb (split_colour_endpoints s)))
    else if b =? 7 then Restore k (Settings (match decorrelation_mode s with V1 => V2 | V2 => V1 | V3 => VNone | VNone => V3 end) (split_colour_endpoints s))
    else if b =? 8 then Restore k (Settings (match decorrelation_mode s with V1 => V3 | V3 => V1 | V2 => VNone | VNone => V2 end) (split_colour_endpoints s))
    else Restore k s.
Proof. exact bit_flips. Qed.
Print Assumptions C91_bit_flips.

(** "A damaged header is noticed" is false: there is a file of which one bit of
    the header, flipped after transforming, yields success and another texture;
    with [C91_recovered] the original texture can still be had. *)
Theorem C91_noticed_refuted : exists (x y h o : list byte), zlen h = 4 /\ word h 0 = Z.lxor (word y 0) (2 ^ 7) /\
  dds_transform_bundle (fun _ : unit => EmptyString) fast_cpu env64 (manual CBc1) x x tt = Ok (ROk tt, y, tt) /\
  dds_untransform fast_cpu env64 (with_word h y) y = Ok (ROk tt, o) /\ zlen o = zlen x /\ o <> x.
Proof.
  exists file1, transformed1, [x40; x00; x00; x00], (left_in (dds_untransform fast_cpu env64 (with_word [x40; x00; x00; x00] transformed1) transformed1)).
  split; [vm_compute; reflexivity|]. split; [vm_compute; reflexivity|]. split; [vm_compute; reflexivity|]. split; [vm_compute; reflexivity|].
  split; [vm_compute; reflexivity|]. vm_compute. intros H. discriminate H.
Qed.
Print Assumptions C91_noticed_refuted.

(** the mending at work on that file *)
Example C91_recovered_example :
  let h := [x40; x00; x00; x00] in let o := left_in (dds_untransform fast_cpu env64 (with_word h transformed1) transformed1) in
  request_of (word h 0) = Restore CBc1 (Settings V1 true) /\ request_of (word transformed1 0) = Restore CBc1 (Settings V2 true) /\
  performs [Call (Little slow_cpu) (job_of CBc1 (Settings V1 true)) false (numbers 32); Call (Little fast_cpu) (job_of CBc1 (Settings V2 true)) true (numbers 40)]
    (slice o 128 32) = Ok (ROk (slice file1 128 32)).
Proof. split; [vm_compute; reflexivity|]. split; vm_compute; reflexivity. Qed.
