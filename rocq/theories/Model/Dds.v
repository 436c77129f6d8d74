(** DDS files: src/extensions/file-formats/dxt-lossless-transform-dds/src. *)
From Verif Require Import Base.Bytes Base.Res Model.Color565 Model.Ycc Model.Kernel Model.Transform Model.Auto Model.Builders Model.Embed Model.Bundle.
Open Scope string_scope.
Open Scope list_scope.
Open Scope Z_scope.

(** ** Rust's checked and unchecked arithmetic, slices *)

(** [a * b] on u32: panics on overflow in debug builds, wraps in release.
    src/extensions/file-formats/dxt-lossless-transform-dds/src/dds/parse_dds.rs:322, 323, 391, 392 *)
Definition u32_mul (debug : bool) (a b : Z) : res Z :=
  if a * b <? 2 ^ 32 then Ok (a * b) else if debug then Panic "attempt to multiply with overflow" else Ok (a * b mod 2 ^ 32).
Definition u32_saturating_add (a b : Z) : Z := Z.min (a + b) (2 ^ 32 - 1).
(** [a.div_ceil(b)];
    src/extensions/file-formats/dxt-lossless-transform-dds/src/dds/parse_dds.rs:318-319 *)
Definition div_ceil (a b : Z) : Z := if 0 <? a mod b then a / b + 1 else a / b.
(** [a + b] on usize;
    src/extensions/file-formats/dxt-lossless-transform-dds/src/handler/file_format_handler.rs:39, 108 *)
Definition usize_add (debug : bool) (v : env) (a b : Z) : res Z :=
  if a + b <=? usize_max v then Ok (a + b) else if debug then Panic "attempt to add with overflow" else Ok ((a + b) mod (usize_max v + 1)).
(** [&l[a..b]];
    src/extensions/file-formats/dxt-lossless-transform-dds/src/handler/file_format_handler.rs:57 *)
Definition range (l : list byte) (a b : Z) : res (list byte) :=
  if (0 <=? a) && (a <=? b) && (b <=? zlen l) then Ok (slice l a (b - a)) else Panic "slice index out of range".
(** [l[a..b].copy_from_slice(src)];
    src/extensions/file-formats/dxt-lossless-transform-dds/src/handler/file_format_handler.rs:51, 65, 120 *)
Definition copy_range (l : list byte) (a b : Z) (src : list byte) : res (list byte) :=
  do old <- range l a b ;;
  if zlen old =? zlen src then Ok (splice l a src)
  else Panic "source slice length does not match destination slice length".
(** crate endian_writer, LittleEndianReader::read_u32_at: an unaligned
    little-endian read through a raw pointer;
    src/extensions/file-formats/dxt-lossless-transform-dds/src/dds/parse_dds.rs:87 *)
Definition read_u32_at (data : list byte) (off : Z) : res Z :=
  if (0 <=? off) && (off + 4 <=? zlen data)
  then Ok (u32le (znth data off) (znth data (off + 1)) (znth data (off + 2)) (znth data (off + 3)))
  else Ub "read outside the slice".

(** ** Constants (src/extensions/file-formats/dxt-lossless-transform-dds/src/dds/constants.rs) *)
Definition DDS_MAGIC : Z := 0x20534444.
Definition FOURCC_OFFSET : Z := 0x54.
Definition FOURCC_DXT1 : Z := 0x31545844.
Definition FOURCC_DXT2 : Z := 0x32545844.
Definition FOURCC_DXT3 : Z := 0x33545844.
Definition FOURCC_DXT4 : Z := 0x34545844.
Definition FOURCC_DXT5 : Z := 0x35545844.
Definition FOURCC_BC4U : Z := 0x55344342.
Definition FOURCC_BC4S : Z := 0x53344342.
Definition FOURCC_ATI1 : Z := 0x31495441.
Definition FOURCC_BC5U : Z := 0x55354342.
Definition FOURCC_BC5S : Z := 0x53354342.
Definition FOURCC_ATI2 : Z := 0x32495441.
Definition FOURCC_DX10 : Z := 0x30315844.
Definition DX10_FORMAT_OFFSET : Z := 0x80.
Definition DDS_HEADER_SIZE : Z := 0x80.
Definition DX10_HEADER_SIZE : Z := 20.
Definition DDS_FLAGS_OFFSET : Z := 0x08.
Definition DDS_HEIGHT_OFFSET : Z := 0x0C.
Definition DDS_WIDTH_OFFSET : Z := 0x10.
Definition DDS_MIPMAP_COUNT_OFFSET : Z := 0x1C.
Definition DDS_PIXELFORMAT_FLAGS_OFFSET : Z := 0x50.
Definition DDS_PIXELFORMAT_RGBBITCOUNT_OFFSET : Z := 0x58.
Definition DDS_PIXELFORMAT_RBITMASK_OFFSET : Z := 0x5C.
Definition DDS_PIXELFORMAT_GBITMASK_OFFSET : Z := 0x60.
Definition DDS_PIXELFORMAT_BBITMASK_OFFSET : Z := 0x64.
Definition DDS_PIXELFORMAT_ABITMASK_OFFSET : Z := 0x68.
Definition DDSD_MIPMAPCOUNT : Z := 0x20000.
Definition DDPF_ALPHAPIXELS : Z := 0x1.
Definition DDPF_ALPHA : Z := 0x2.
Definition DDPF_FOURCC : Z := 0x4.
Definition DDPF_RGB : Z := 0x40.
Definition DDPF_YUV : Z := 0x200.
Definition DDPF_LUMINANCE : Z := 0x20000.

(** src/extensions/file-formats/dxt-lossless-transform-dds/src/dds/parse_dds.rs:8-32 *)
Inductive dds_format := NotADds | Unknown | DBC1 | DBC2 | DBC3 | DBC6H | DBC7 | DRGBA8888 | DBGRA8888 | DBGR888 | DBC4 | DBC5.
(** src/extensions/file-formats/dxt-lossless-transform-dds/src/dds/parse_dds.rs:37-41 *)
Record dds_info := DdsInfo { i_format : dds_format; i_data_offset : Z; i_data_length : Z }.

(** src/extensions/file-formats/dxt-lossless-transform-dds/src/dds/likely_dds.rs:9-13 *)
Definition likely_dds (data : list byte) : bool :=
  (DDS_HEADER_SIZE <=? zlen data) && (u32le (znth data 0) (znth data 1) (znth data 2) (znth data 3) =? DDS_MAGIC).

(** src/extensions/file-formats/dxt-lossless-transform-dds/src/dds/parse_dds.rs:98-130 *)
Definition dxgi_to_format (dxgi : Z) : dds_format :=
  let is := existsb (Z.eqb dxgi) in
  if is [70; 71; 72] then DBC1
  else if is [73; 74; 75] then DBC2
  else if is [76; 77; 78] then DBC3
  else if is [79; 80; 81] then DBC4
  else if is [82; 83; 84] then DBC5
  else if is [94; 95; 96] then DBC6H
  else if is [97; 98; 99] then DBC7
  else if is [27; 28; 29; 30; 31; 32] then DRGBA8888
  else if is [87; 90; 91] then DBGRA8888
  else Unknown.
(** src/extensions/file-formats/dxt-lossless-transform-dds/src/dds/parse_dds.rs:140-147 *)
Definition fourcc_to_format (fourcc : Z) : dds_format :=
  let is := existsb (Z.eqb fourcc) in
  if is [FOURCC_DXT1] then DBC1
  else if is [FOURCC_DXT2; FOURCC_DXT3] then DBC2
  else if is [FOURCC_DXT4; FOURCC_DXT5] then DBC3
  else if is [FOURCC_BC4U; FOURCC_BC4S; FOURCC_ATI1] then DBC4
  else if is [FOURCC_BC5U; FOURCC_BC5S; FOURCC_ATI2] then DBC5
  else Unknown.
(** src/extensions/file-formats/dxt-lossless-transform-dds/src/dds/parse_dds.rs:175-232; mask constants at src/extensions/file-formats/dxt-lossless-transform-dds/src/dds/constants.rs:111-125 *)
Definition detect_uncompressed_format (data : list byte) : res dds_format :=
  do pixel_flags <- read_u32_at data DDS_PIXELFORMAT_FLAGS_OFFSET ;;
  do rgb_bit_count <- read_u32_at data DDS_PIXELFORMAT_RGBBITCOUNT_OFFSET ;;
  do r <- read_u32_at data DDS_PIXELFORMAT_RBITMASK_OFFSET ;;
  do g <- read_u32_at data DDS_PIXELFORMAT_GBITMASK_OFFSET ;;
  do b <- read_u32_at data DDS_PIXELFORMAT_BBITMASK_OFFSET ;;
  do a <- read_u32_at data DDS_PIXELFORMAT_ABITMASK_OFFSET ;;
  Ok (if rgb_bit_count =? 24 then
        if (r =? 0x00FF0000) && (g =? 0x0000FF00) && (b =? 0x000000FF) && (a =? 0) then DBGR888 else Unknown
      else if rgb_bit_count =? 32 then
        if negb (Z.land pixel_flags DDPF_ALPHAPIXELS =? 0) then
          if (r =? 0x000000FF) && (g =? 0x0000FF00) && (b =? 0x00FF0000) && (a =? 0xFF000000) then DRGBA8888
          else if (r =? 0x00FF0000) && (g =? 0x0000FF00) && (b =? 0x000000FF) && (a =? 0xFF000000) then DBGRA8888
          else Unknown
        else Unknown
      else Unknown).

(** The loop of src/extensions/file-formats/dxt-lossless-transform-dds/src/dds/parse_dds.rs:316-328 and 390-397: [n] levels are left. *)
Fixpoint mip_levels (n : nat) (level_size : Z -> Z -> res Z) (w h total_size : Z) : res Z :=
  match n with
  | O => Ok total_size
  | S n' =>
      do size <- level_size w h ;;
      mip_levels n' level_size (Z.max (w / 2) 1) (Z.max (h / 2) 1) (u32_saturating_add total_size size)
  end.

(** src/extensions/file-formats/dxt-lossless-transform-dds/src/dds/parse_dds.rs:376-400 *)
Definition calculate_data_length_for_pixel_formats (debug : bool) (width height mipmap_count bytes_per_pixel : Z) : res (option Z) :=
  if bytes_per_pixel =? 0 then Ok None
  else
    do total <- mip_levels (Z.to_nat mipmap_count)
      (fun w h => do p <- u32_mul debug w h ;; u32_mul debug p bytes_per_pixel) width height 0 ;;
    Ok (Some total).

(** src/extensions/file-formats/dxt-lossless-transform-dds/src/dds/parse_dds.rs:301-310 *)
Definition block_size_of (f : dds_format) : option Z :=
  match f with
  | DBC1 | DBC4 => Some 8
  | DBC2 | DBC3 | DBC5 | DBC6H | DBC7 => Some 16
  | _ => None
  end.
(** src/extensions/file-formats/dxt-lossless-transform-dds/src/dds/parse_dds.rs:285-346 *)
Definition calculate_data_length_for_block_compression (debug : bool) (f : dds_format) (width height mipmap_count : Z) : res (option Z) :=
  match f with
  | DBC1 | DBC2 | DBC3 | DBC4 | DBC5 | DBC6H | DBC7 =>
      match block_size_of f with
      | None => Ub "unreachable_unchecked"
      | Some block_size =>
          do total <- mip_levels (Z.to_nat mipmap_count)
            (fun w h => do p <- u32_mul debug (div_ceil w 4) (div_ceil h 4) ;; u32_mul debug p block_size) width height 0 ;;
          Ok (Some total)
      end
  | DRGBA8888 | DBGRA8888 => calculate_data_length_for_pixel_formats debug width height mipmap_count 4
  | DBGR888 => calculate_data_length_for_pixel_formats debug width height mipmap_count 3
  | Unknown => Ok (Some 0)
  | NotADds => Ok None
  end.

(** src/extensions/file-formats/dxt-lossless-transform-dds/src/dds/parse_dds.rs:349-373 *)
Definition calculate_uncompressed_data_length (debug : bool) (data : list byte) (width height mipmap_count : Z) : res (option Z) :=
  do pixel_flags <- read_u32_at data DDS_PIXELFORMAT_FLAGS_OFFSET ;;
  do rgb_bit_count <- read_u32_at data DDS_PIXELFORMAT_RGBBITCOUNT_OFFSET ;;
  if Z.land pixel_flags (Z.lor DDPF_RGB (Z.lor DDPF_LUMINANCE (Z.lor DDPF_YUV DDPF_ALPHA))) =? 0 then Ok None
  else if negb (rgb_bit_count mod 8 =? 0) then Ok None
  else calculate_data_length_for_pixel_formats debug width height mipmap_count (rgb_bit_count / 8).

(** src/extensions/file-formats/dxt-lossless-transform-dds/src/dds/parse_dds.rs:236-278 *)
Definition calculate_data_length (debug : bool) (f : dds_format) (data : list byte) : res (option Z) :=
  do flags <- read_u32_at data DDS_FLAGS_OFFSET ;;
  do height <- read_u32_at data DDS_HEIGHT_OFFSET ;;
  do width <- read_u32_at data DDS_WIDTH_OFFSET ;;
  do raw_mipmap_count <- read_u32_at data DDS_MIPMAP_COUNT_OFFSET ;;
  let mipmap_count := if negb (Z.land flags DDSD_MIPMAPCOUNT =? 0) then Z.max raw_mipmap_count 1 else 1 in
  match f with
  | DBC1 | DBC2 | DBC3 | DBC4 | DBC5 | DBC6H | DBC7 =>
      calculate_data_length_for_block_compression debug f width height mipmap_count
  | DRGBA8888 | DBGRA8888 => calculate_data_length_for_pixel_formats debug width height mipmap_count 4
  | DBGR888 => calculate_data_length_for_pixel_formats debug width height mipmap_count 3
  | Unknown => calculate_uncompressed_data_length debug data width height mipmap_count
  | NotADds => Ok None
  end.

(** src/extensions/file-formats/dxt-lossless-transform-dds/src/dds/parse_dds.rs:79-168 *)
Definition parse_dds_ignore_magic (debug : bool) (data : list byte) : res (option dds_info) :=
  if zlen data <? DDS_HEADER_SIZE then Ok None
  else
    do fourcc <- read_u32_at data FOURCC_OFFSET ;;
    do fo <-
      (if fourcc =? FOURCC_DX10 then
         if zlen data <? DDS_HEADER_SIZE + DX10_HEADER_SIZE then Ok None
         else
           do dxgi <- read_u32_at data DX10_FORMAT_OFFSET ;;
           Ok (Some (dxgi_to_format dxgi, DDS_HEADER_SIZE + DX10_HEADER_SIZE))
       else
         do pixel_flags <- read_u32_at data DDS_PIXELFORMAT_FLAGS_OFFSET ;;
         do format <-
           (if negb (Z.land pixel_flags DDPF_FOURCC =? 0) then Ok (fourcc_to_format fourcc)
            else if negb (Z.land pixel_flags DDPF_RGB =? 0) then detect_uncompressed_format data
            else Ok Unknown) ;;
         Ok (Some (format, DDS_HEADER_SIZE))) ;;
    match fo with
    | None => Ok None
    | Some (format, data_offset) =>
        do len <- calculate_data_length debug format data ;;
        Ok (Some (DdsInfo format (data_offset mod 256) (match len with Some n => n | None => 0 end)))
    end.
(** src/extensions/file-formats/dxt-lossless-transform-dds/src/dds/parse_dds.rs:58-64 *)
Definition parse_dds (debug : bool) (data : list byte) : res (option dds_info) :=
  if negb (likely_dds data) then Ok None else parse_dds_ignore_magic debug data.

(** ** C exports (src/extensions/file-formats/dxt-lossless-transform-dds/src/dds/exports.rs). A pointer is null or points to some bytes. *)

(** src/extensions/file-formats/dxt-lossless-transform-dds/src/dds/exports.rs:12-20; the caller promises [len] readable bytes *)
Definition is_dds_c (p : option (list byte)) (len : Z) : res bool :=
  match p with
  | None => Ok false
  | Some l => if len =? 0 then Ok false
              else if len <=? zlen l then Ok (likely_dds (firstn (Z.to_nat len) l)) else Ub "slice::from_raw_parts"
  end.
(** src/extensions/file-formats/dxt-lossless-transform-dds/src/dds/exports.rs:39-64 *)
Definition parse_dds_c (debug : bool) (p : option (list byte)) (len : Z) : res dds_info :=
  match p with
  | None => Ok (DdsInfo NotADds 0 0)
  | Some l =>
      if len =? 0 then Ok (DdsInfo NotADds 0 0)
      else if len <=? zlen l then
        do r <- parse_dds debug (firstn (Z.to_nat len) l) ;;
        Ok (match r with Some i => DdsInfo (i_format i) (i_data_offset i) (i_data_length i) | None => DdsInfo NotADds 0 0 end)
      else Ub "slice::from_raw_parts"
  end.

(** ** The handler *)

(** src/extensions/file-formats/dxt-lossless-transform-dds/src/handler/format_conversion.rs:43-102 *)
Definition dds_format_to_transform_format (f : dds_format) (allow_unimplemented : bool) : result transform_format transform_error :=
  let unless (g : transform_format) := if allow_unimplemented then ROk g else RErr (EFormatHandler (FormatNotImplemented g)) in
  match f with
  | DBC1 => ROk FBc1
  | DBC2 => ROk FBc2
  | DBC3 => unless FBc3
  | DBC4 => unless FBc4
  | DBC5 => unless FBc5
  | DBC6H => unless FBc6H
  | DBC7 => unless FBc7
  | DRGBA8888 => ROk FRgba8888
  | DBGRA8888 => ROk FBgra8888
  | DBGR888 => ROk FBgr888
  | NotADds | Unknown => RErr (EFormatHandler UnknownFileFormat)
  end.

(** src/extensions/file-formats/dxt-lossless-transform-dds/src/handler/file_format_detection.rs:7-17 *)
Definition dds_can_handle (debug : bool) (input : list byte) (ext : option string) : res bool :=
  match ext with
  | Some e => if negb (String.eqb e "dds") then Ok false
              else do i <- parse_dds debug input ;; Ok (match i with Some _ => true | None => false end)
  | None => do i <- parse_dds debug input ;; Ok (match i with Some _ => true | None => false end)
  end.
(** src/extensions/file-formats/dxt-lossless-transform-dds/src/handler/file_format_untransform_detection.rs:7-21 *)
Definition dds_can_handle_untransform (debug : bool) (input : list byte) (ext : option string) : res bool :=
  let content :=
    if zlen input <? 4 then Ok false
    else do i <- parse_dds_ignore_magic debug input ;; Ok (match i with Some _ => true | None => false end) in
  match ext with
  | Some e => if negb (String.eqb e "dds") then Ok false else content
  | None => content
  end.

Section Handler.
Context {St Er : Type}.
Variable show : Er -> string.
Variables (c : cfg) (v : env).

(** src/extensions/file-formats/dxt-lossless-transform-dds/src/handler/file_format_handler.rs:16-78 *)
Definition dds_transform_bundle (t : bundle St Er) (input output : list byte) (st : St)
  : res (result unit transform_error * list byte * St) :=
  if zlen output <? zlen input then Ok (RErr (EFormatHandler (FhOutputBufferTooSmall (zlen input) (zlen output))), output, st)
  else
    do info <- parse_dds (c_debug c) input ;;
    match info with
    | None => Ok (RErr (EFormatHandler InvalidInputFileHeader), output, st)
    | Some info =>
        let data_offset := i_data_offset info in
        let data_length := i_data_length info in
        do total_required <- usize_add (c_debug c) v data_offset data_length ;;
        if zlen input <? total_required
        then Ok (RErr (EFormatHandler (InputTooShortForStatedTextureSize total_required (zlen input))), output, st)
        else
          do head <- range input 0 data_offset ;;
          do output <- copy_range output 0 data_offset head ;;
          match dds_format_to_transform_format (i_format info) false with
          | RErr e => Ok (RErr e, output, st)
          | ROk transform_format =>
              do texture_end <- usize_add (c_debug c) v data_offset data_length ;;
              do texture <- range input data_offset texture_end ;;
              do target <- range output data_offset texture_end ;;
              do r <- dispatch_transform show c v t transform_format texture target st ;;
              match r with
              | (RErr e, target, st) => Ok (RErr e, splice output data_offset target, st)
              | (ROk header, target, st) =>
                  let output := splice output data_offset target in
                  do output <-
                    (if texture_end <? zlen input
                     then do leftover <- range input texture_end (zlen input) ;;
                          copy_range output texture_end (zlen output) leftover
                     else Ok output) ;;
                  Ok (ROk tt, write_to_ptr header output 0, st)
              end
          end
    end.

(** src/extensions/file-formats/dxt-lossless-transform-dds/src/handler/file_format_handler.rs:80-139 *)
Definition dds_untransform (input output : list byte) : res (result unit transform_error * list byte) :=
  if zlen input <? 4 then Ok (RErr (EFormatHandler (InputTooShort 4 (zlen input))), output)
  else if zlen output <? zlen input then Ok (RErr (EFormatHandler (FhOutputBufferTooSmall (zlen input) (zlen output))), output)
  else
    let header := read_from_ptr input 0 in
    do info <- parse_dds_ignore_magic (c_debug c) input ;;
    match info with
    | None => Ok (RErr (EFormatHandler InvalidRestoredFileHeader), output)
    | Some info =>
        let data_offset := i_data_offset info in
        let data_length := i_data_length info in
        do total_required <- usize_add (c_debug c) v data_offset data_length ;;
        if zlen input <? total_required
        then Ok (RErr (EFormatHandler (InputTooShortForStatedTextureSize total_required (zlen input))), output)
        else
          do output <- copy_range output 0 4 (u32_bytes DDS_MAGIC) ;;
          do head <- range input 4 data_offset ;;
          do output <- copy_range output 4 data_offset head ;;
          do texture_end <- usize_add (c_debug c) v data_offset data_length ;;
          do texture <- range input data_offset texture_end ;;
          do target <- range output data_offset texture_end ;;
          do r <- dispatch_untransform c header texture target ;;
          match r with
          | (RErr e, target) => Ok (RErr e, splice output data_offset target)
          | (ROk _, target) =>
              let output := splice output data_offset target in
              do output <-
                (if texture_end <? zlen input
                 then do leftover <- range input texture_end (zlen input) ;;
                      copy_range output texture_end (zlen output) leftover
                 else Ok output) ;;
              Ok (ROk tt, output)
          end
    end.
End Handler.

(** ** Looking at the blocks of a file *)

(** src/core/dxt-lossless-transform-file-formats-debug/src/block_extraction.rs:35-59 *)
Inductive format_filter := OnlyFormat (f : transform_format) | AllFormats.
(** src/core/dxt-lossless-transform-file-formats-debug/src/block_extraction.rs:63-78: a filter is a format or [All] *)
Definition filter_accepts (fl : format_filter) (f : transform_format) : bool :=
  match fl with OnlyFormat g => format_eqb g f | AllFormats => true end.

(** src/extensions/file-formats/dxt-lossless-transform-dds/src/handler/file_format_block_extraction.rs:11-53 *)
Definition dds_extract_blocks (debug : bool) (v : env) (data : list byte) (fl : format_filter)
  : res (result (option (list byte * transform_format)) transform_error) :=
  do info <- parse_dds debug data ;;
  match info with
  | None => Ok (RErr (EFormatHandler UnknownFileFormat))
  | Some info =>
      match dds_format_to_transform_format (i_format info) true with
      | RErr e => Ok (RErr e)
      | ROk f =>
          if negb (filter_accepts fl f) then Ok (ROk None)
          else
            let data_offset := i_data_offset info in
            let data_length := i_data_length info in
            do total_required <- usize_add debug v data_offset data_length ;;
            if zlen data <? total_required
            then Ok (RErr (EFormatHandler (InputTooShortForStatedTextureSize total_required (zlen data))))
            else
              do texture_end <- usize_add debug v data_offset data_length ;;
              do block_data <- range data data_offset texture_end ;;
              Ok (ROk (Some (block_data, f)))
      end
  end.

(** src/extensions/file-formats/dxt-lossless-transform-dds/src/handler/file_format_check.rs:11-32 *)
Definition dds_get_transform_format (debug : bool) (data : list byte) (fl : format_filter)
  : res (result (option transform_format) transform_error) :=
  do info <- parse_dds debug data ;;
  match info with
  | None => Ok (RErr (EFormatHandler UnknownFileFormat))
  | Some info =>
      match dds_format_to_transform_format (i_format info) true with
      | RErr e => Ok (RErr e)
      | ROk f => if negb (filter_accepts fl f) then Ok (ROk None) else Ok (ROk (Some f))
      end
  end.
